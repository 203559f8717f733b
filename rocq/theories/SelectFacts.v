(** SelectFacts.v -- sorting and selection of the items of a loop (C21, C22). *)

From Coq Require Import String List NArith ZArith Bool Lia Sorting.Sorted Sorting.Permutation.
From Verif Require Import SpecUtf8 Utf8Facts Text TextFacts Utf8 Json Base Syntax Parse Tree Interp SpecScope ScopeFacts SpecLoop.
Import ListNotations.

Lemma text_ltb_false a b : text_ltb a b = false <-> lex_le b a.
Proof.
  revert b. induction a as [|x a IH]; intros [|y b]; cbn [text_ltb].
  - split; [constructor|reflexivity].
  - split; [discriminate|]. intros H. inversion H.
  - split; [constructor|reflexivity].
  - destruct (N.ltb_spec x y) as [L|L].
    + split; [discriminate|]. intros H. inversion H; subst; lia.
    + destruct (N.ltb_spec y x) as [M|M].
      * split; [|reflexivity]. intros _. now constructor.
      * assert (x = y) by lia. subst y. rewrite IH. split; [now constructor|]. intros H. inversion H; subst; [lia|assumption].
Qed.
Lemma lex_le_refl a : lex_le a a.
Proof. induction a; now constructor. Qed.
Lemma lex_le_trans a b c : lex_le a b -> lex_le b c -> lex_le a c.
Proof.
  intros H. revert c. induction H as [t|x y s t L|x s t H IH]; intros c K; [constructor| |].
  - inversion K; subst; constructor; lia.
  - inversion K; subst; constructor; [assumption|now apply IH].
Qed.
Lemma lex_le_total a b : lex_le a b \/ lex_le b a.
Proof.
  revert b. induction a as [|x a IH]; intros b; [left; constructor|]. destruct b as [|y b]; [right; constructor|].
  destruct (N.lt_trichotomy x y) as [L|[->|L]]; [left; now constructor| |right; now constructor].
  destruct (IH b); [left|right]; now constructor.
Qed.
Lemma lex_le_antisym a b : lex_le a b -> lex_le b a -> a = b.
Proof.
  intros H. induction H as [t|x y s t L|x s t H IH]; intros K.
  - now inversion K.
  - inversion K; subst; lia.
  - inversion K; subst; [lia|]. f_equal. now apply IH.
Qed.
Lemma text_ltb_le a b : text_ltb a b = true -> lex_le a b.
Proof.
  intros H. destruct (lex_le_total a b) as [L|L]; [exact L|]. apply text_ltb_false in L. congruence.
Qed.
Lemma text_ltb_neq a b : text_ltb a b = true -> a <> b.
Proof. intros H ->. assert (X := proj2 (text_ltb_false b b) (lex_le_refl b)). congruence. Qed.

Section Sort.
  Variable key : value -> text.
  Let le (a b : value) := lex_le (key a) (key b).
  Let same k := filter (fun v => text_eqb (key v) k).

  Lemma insert_perm x l : Permutation (l ++ [x]) (insert_by key x l).
  Proof.
    induction l as [|y l IH]; cbn; [reflexivity|]. destruct (text_ltb (key x) (key y)).
    - apply (Permutation_app_comm (y :: l) [x]).
    - now constructor.
  Qed.
  Lemma insert_sorted x l : StronglySorted le l -> StronglySorted le (insert_by key x l).
  Proof.
    intros H. induction H as [|y l H IH F]; cbn [insert_by].
    - repeat constructor.
    - destruct (text_ltb (key x) (key y)) eqn:E.
      + apply text_ltb_le in E. constructor; [now constructor|]. constructor; [exact E|].
        eapply Forall_impl; [|exact F]. intros a K. now apply lex_le_trans with (key y).
      + apply text_ltb_false in E. constructor; [exact IH|].
        apply (Permutation_Forall (insert_perm x l)). apply Forall_app. split; [exact F|]. now constructor.
  Qed.
  Lemma insert_same k x l : StronglySorted le l -> same k (insert_by key x l) = same k (l ++ [x]).
  Proof.
    intros H. induction H as [|y l H IH F]; cbn [insert_by]; [reflexivity|].
    destruct (text_ltb (key x) (key y)) eqn:E.
    - unfold same at 1. cbn [filter]. destruct (text_eqb (key x) k) eqn:X.
      + apply text_eqb_eq in X. subst k.
        assert (Z : same (key x) (y :: l) = []).
        { assert (A : Forall (fun z => text_eqb (key z) (key x) = false) (y :: l)).
          { constructor; [apply text_eqb_neq; intros Q; apply text_ltb_neq in E; now apply E|].
            eapply Forall_impl; [|exact F]. intros a K. apply text_eqb_neq. intros Q.
            assert (Y : lex_le (key y) (key x)) by (rewrite <- Q; exact K). apply text_ltb_false in Y. congruence. }
          revert A. generalize (y :: l). intros q A. unfold same. induction A as [|z q A1 A2 IHA]; [reflexivity|]. cbn [filter]. now rewrite A1. }
        unfold same in *. rewrite filter_app, Z. cbn [filter] in Z. rewrite Z. cbn [app filter]. now rewrite text_eqb_refl.
      + unfold same. rewrite filter_app. cbn [filter]. rewrite X. now rewrite app_nil_r.
    - unfold same in *. cbn [filter app]. now rewrite IH.
  Qed.
  Lemma sort_aux l : forall acc, StronglySorted le acc ->
    let r := fold_left (fun acc x => insert_by key x acc) l acc in
    StronglySorted le r /\ Permutation (acc ++ l) r /\ forall k, same k r = same k (acc ++ l).
  Proof.
    induction l as [|x l IH]; intros acc H; cbn [fold_left].
    - rewrite app_nil_r. repeat split; [exact H|reflexivity].
    - destruct (IH (insert_by key x acc) (insert_sorted x acc H)) as (A & B & C). split; [exact A|].
      replace (acc ++ x :: l) with ((acc ++ [x]) ++ l) by now rewrite <- app_assoc. split.
      + rewrite <- B. apply Permutation_app_tail. apply insert_perm.
      + intros k. rewrite C. unfold same in *. rewrite (filter_app _ (insert_by key x acc)), (filter_app _ (acc ++ [x])). f_equal. now apply insert_same.
  Qed.
  Lemma sort_stable vs : stably_sorted key vs (sort_by key vs).
  Proof. destruct (sort_aux vs [] (SSorted_nil _)) as (A & B & C). repeat split; assumption. Qed.

  (** There is only one way to sort stably. *)
  Lemma stable_unique vs us1 us2 : stably_sorted key vs us1 -> stably_sorted key vs us2 -> us1 = us2.
  Proof.
    intros (_ & S1 & F1) (_ & S2 & F2).
    assert (F : forall k, same k us1 = same k us2) by (intros k; unfold same; now rewrite F1, F2). clear F1 F2.
    revert us2 S2 F. induction S1 as [|a l1 S1 IH A1]; intros us2 S2 F.
    - destruct us2 as [|b us2]; [reflexivity|]. specialize (F (key b)). unfold same in F. cbn [filter] in F. rewrite text_eqb_refl in F. discriminate.
    - destruct us2 as [|b us2].
      + specialize (F (key a)). unfold same in F. cbn [filter] in F. rewrite text_eqb_refl in F. discriminate.
      + inversion S2 as [|b' l' S2' A2 E]; subst b' l'.
        assert (Ia : In a (b :: us2)).
        { assert (X : In a (same (key a) (b :: us2))).
          { rewrite <- F. unfold same. apply filter_In. split; [now left|apply text_eqb_refl]. }
          unfold same in X. now apply filter_In in X. }
        assert (Ib : In b (a :: l1)).
        { assert (X : In b (same (key b) (a :: l1))).
          { rewrite F. unfold same. apply filter_In. split; [now left|apply text_eqb_refl]. }
          unfold same in X. now apply filter_In in X. }
        assert (K : key a = key b).
        { apply lex_le_antisym.
          - destruct Ib as [->|Ib]; [apply lex_le_refl|]. exact (proj1 (Forall_forall _ _) A1 b Ib).
          - destruct Ia as [->|Ia]; [apply lex_le_refl|]. exact (proj1 (Forall_forall _ _) A2 a Ia). }
        assert (E1 := F (key a)). unfold same in E1. cbn [filter] in E1. rewrite text_eqb_refl, <- K, text_eqb_refl in E1.
        injection E1 as <- _. f_equal. apply IH; [exact S2'|]. intros k. specialize (F k). unfold same in *. cbn [filter] in F.
        destruct (text_eqb (key a) k); [now injection F|exact F].
  Qed.
End Sort.

Lemma sort_key_spec name v : ordering_key name v (sort_key name v).
Proof.
  unfold sort_key. assert (S1 := split_char_spec c_dot name). assert (S2 := split_char_dotted name).
  destruct (split_char c_dot name) as [h p]. exists h, p. split; [exact S2|]. split; [apply S1|]. split; [apply S1|].
  cbn [snd]. assert (G := fun x => proj1 (get_value_iff p v x)).
  destruct (get_value p v) as [| | |k| |] eqn:E; cbn [as_str];
    try (right; split; [reflexivity|]; intros x X; apply get_value_iff in X; rewrite X in E; discriminate).
  left. now apply G.
Qed.

Lemma cut_spec (us : list value) skip limit :
  exists dropped kept rest, us = dropped ++ kept ++ rest /\
    match limit with Some n => take_n n (match skip with Some n => skip_n n us | None => us end)
                   | None => match skip with Some n => skip_n n us | None => us end end = kept /\
    N.of_nat (length dropped) = N.min (match skip with Some n => n | None => 0 end) (N.of_nat (length us)) /\
    match limit with
    | None => rest = []
    | Some n => (N.of_nat (length kept) <= n)%N /\ (rest <> [] -> N.of_nat (length kept) = n)
    end.
Proof.
  set (k := match skip with Some n => N.to_nat n | None => 0%nat end).
  assert (E : match skip with Some n => skip_n n us | None => us end = skipn k us).
  { unfold k. destruct skip; [apply skip_n_spec|reflexivity]. }
  assert (D : N.of_nat (length (firstn k us)) = N.min (match skip with Some n => n | None => 0 end) (N.of_nat (length us))).
  { rewrite firstn_length. unfold k. destruct skip; lia. }
  rewrite E. destruct limit as [n|].
  - rewrite take_n_spec. exists (firstn k us), (firstn (N.to_nat n) (skipn k us)), (skipn (N.to_nat n) (skipn k us)).
    rewrite (firstn_skipn (N.to_nat n)), firstn_skipn. repeat split; [exact D| |].
    + rewrite firstn_length. lia.
    + intros H. rewrite firstn_length. assert (L : length (skipn (N.to_nat n) (skipn k us)) <> 0%nat) by (intros X; apply H; now apply length_zero_iff_nil).
      rewrite (skipn_length (N.to_nat n)) in L. lia.
  - exists (firstn k us), (skipn k us), []. rewrite app_nil_r, firstn_skipn. repeat split. exact D.
Qed.

Lemma select_visits f vs : visits f vs (select f vs).
Proof.
  unfold visits, select.
  set (us := match ff_sort f with Some k => sort_by (sort_key k) vs | None => vs end).
  exists us, (if ff_desc f then rev us else us). split; [|split; [|split]].
  - unfold us. destruct (ff_sort f) as [name|]; [|reflexivity]. exists (sort_key name). split; [apply sort_key_spec|apply sort_stable].
  - now intros ->.
  - now intros ->.
  - destruct (cut_spec (if ff_desc f then rev us else us) (ff_skip f) (ff_limit f)) as (d & k & r & E & K & D & L).
    exists d, k, r. repeat split; assumption.
Qed.

(** The keys are determined, so that is the only possible outcome. *)
Lemma ordering_key_fun name v k k' : ordering_key name v k -> ordering_key name v k' -> k = k'.
Proof.
  intros (h & p & E & Hh & Hp & K) (h' & p' & E' & Hh' & Hp' & K').
  assert (Q1 := split_dotted p h Hh Hp). assert (Q2 := split_dotted p' h' Hh' Hp'). rewrite <- E in Q1. rewrite <- E', Q1 in Q2.
  assert (Q : h = h' /\ p = p') by now injection Q2. destruct Q as [<- <-].
  destruct K as [K|[-> K]], K' as [K'|[-> K']].
  - apply get_value_iff in K, K'. congruence.
  - now apply K' in K.
  - now apply K in K'.
  - reflexivity.
Qed.
Lemma visits_unique f vs o1 o2 : visits f vs o1 -> visits f vs o2 -> o1 = o2.
Proof.
  intros (u1 & u1' & S1 & A1 & B1 & d1 & k1 & r1 & E1 & -> & D1 & L1) (u2 & u2' & S2 & A2 & B2 & d2 & k2 & r2 & E2 & -> & D2 & L2).
  assert (U : u1 = u2).
  { destruct (ff_sort f) as [name|]; [|congruence]. destruct S1 as (key1 & K1 & S1), S2 as (key2 & K2 & S2).
    apply stable_unique with key1 vs; [exact S1|]. destruct S2 as (P & S2 & F2). assert (K : forall v, key1 v = key2 v) by (intros v; now apply ordering_key_fun with name v).
    split; [exact P|]. split.
    - clear -S2 K. induction S2 as [|a l S2 IH F]; constructor; [exact IH|]. eapply Forall_impl; [|exact F]. intros b. now rewrite !K.
    - intros k. rewrite !(filter_ext _ _ (fun v => f_equal (fun x => text_eqb x k) (K v))). apply F2. }
  subst u2. assert (U : u1' = u2') by (destruct (ff_desc f); [now rewrite B1, B2|now rewrite A1, A2]). rewrite <- U in E2, D2.
  assert (L : length d1 = length d2) by (apply Nat2N.inj; rewrite D1, D2; reflexivity). rewrite E1 in E2.
  assert (X : d1 = d2 /\ k1 ++ r1 = k2 ++ r2).
  { clear -E2 L. revert d2 E2 L. induction d1 as [|a d1 IH]; intros [|b d2] E L; try discriminate L; [now split|].
    cbn in E. injection E as -> E. destruct (IH d2 E ltac:(cbn in L; lia)) as [-> ->]. now split. }
  destruct X as [_ X]. destruct (ff_limit f) as [n|].
  - destruct L1 as [L1 M1], L2 as [L2 M2].
    assert (T : length k1 = length k2).
    { assert (Q := f_equal (@length value) X). rewrite !app_length in Q. destruct r1 as [|x r1]; destruct r2 as [|y r2]; cbn [length] in Q.
      - lia.
      - assert (Z := M2 ltac:(discriminate)). lia.
      - assert (Z := M1 ltac:(discriminate)). lia.
      - assert (Z := M1 ltac:(discriminate)). assert (Z2 := M2 ltac:(discriminate)). lia. }
    clear -X T. revert k2 X T. induction k1 as [|a k1 IH]; intros [|b k2] E L; try discriminate L; [reflexivity|].
    cbn in E. injection E as -> E. f_equal. apply IH; [exact E|]. now injection L.
  - subst. rewrite !app_nil_r in X. exact X.
Qed.

Lemma posts_values ns vs : posts ns vs -> forall E, md_values (E := E) ns = Ok vs.
Proof.
  intros H E. induction H as [|n m ns v vs P V H IH|n ns vs P H IH]; cbn [md_values]; [reflexivity| |].
  - rewrite P, (md_value_any _ _ V). cbn. now rewrite IH.
  - destruct (n_parsed n) eqn:X; try exact IH. now destruct (P m).
Qed.
Lemma byte_order a b x y : utf8_text x a -> utf8_text y b -> (bytes_ltb y x = false <-> lex_le a b).
Proof.
  intros A B. apply utf8_text_iff in A, B. destruct A as [<- A], B as [<- B].
  rewrite <- (text_ltb_bytes b a B A). apply text_ltb_false.
Qed.
