(** TextFacts.v -- lemmas about Text.v. *)

From Coq Require Import Ascii String List NArith ZArith Bool Lia.
From Coq Require Import ZifyBool ZifyNat ZifyN.
From Verif Require Import Text.
Import ListNotations.
Local Open Scope N_scope.

(** [lia] sees [text], [bytes] and [char] through their definitions. *)
Ltac tlia := unfold text, bytes, char in *; lia.

Lemma text_eqb_eq a b : text_eqb a b = true <-> a = b.
Proof.
  revert b; induction a as [|x a IH]; intros [|y b]; simpl; split; intro H; try congruence; auto.
  - apply andb_true_iff in H as [H1 H2]. apply N.eqb_eq in H1. apply IH in H2. congruence.
  - injection H as -> ->. rewrite N.eqb_refl. now apply IH.
Qed.
Lemma text_eqb_refl a : text_eqb a a = true.
Proof. now apply text_eqb_eq. Qed.
Lemma text_eqb_neq a b : text_eqb a b = false <-> a <> b.
Proof.
  split; intros H.
  - intros ->. now rewrite text_eqb_refl in H.
  - destruct (text_eqb a b) eqn:E; auto. apply text_eqb_eq in E. congruence.
Qed.
Lemma text_eqb_sym a b : text_eqb a b = text_eqb b a.
Proof.
  destruct (text_eqb a b) eqn:E.
  - apply text_eqb_eq in E. subst. now rewrite text_eqb_refl.
  - symmetry. apply text_eqb_neq. apply text_eqb_neq in E. congruence.
Qed.
Lemma text_eq_dec (a b : text) : {a = b} + {a <> b}.
Proof. apply list_eq_dec, N.eq_dec. Qed.

Lemma strip_prefix_spec p t r : strip_prefix p t = Some r <-> t = p ++ r.
Proof.
  revert t; induction p as [|x p IH]; intros t; simpl.
  - split; congruence.
  - destruct t as [|y t]; [split; congruence|].
    destruct (N.eqb_spec x y) as [->|n]; [rewrite IH|]; split; intro H; congruence.
Qed.
Lemma strip_prefix_none p t : strip_prefix p t = None <-> forall r, t <> p ++ r.
Proof.
  split.
  - intros H r E. apply strip_prefix_spec in E. congruence.
  - intros H. destruct (strip_prefix p t) eqn:E; auto. apply strip_prefix_spec in E.
    now apply H in E.
Qed.
Lemma starts_with_spec p t : starts_with p t = true <-> exists r, t = p ++ r.
Proof.
  unfold starts_with. destruct (strip_prefix p t) eqn:E.
  - apply strip_prefix_spec in E. split; eauto.
  - rewrite strip_prefix_none in E. split; [congruence|]. intros [r Hr]. now apply E in Hr.
Qed.
Lemma strip_suffix_spec p t r : strip_suffix p t = Some r <-> t = r ++ p.
Proof.
  unfold strip_suffix. destruct (strip_prefix (rev p) (rev t)) eqn:E.
  - apply strip_prefix_spec in E.
    assert (E' : t = rev t0 ++ p).
    { rewrite <- (rev_involutive t), E, rev_app_distr, rev_involutive. auto. }
    split.
    + intros H. injection H as <-. auto.
    + intros ->. apply app_inv_tail in E'. f_equal. now symmetry.
  - rewrite strip_prefix_none in E. split; [congruence|]. intros ->.
    exfalso. apply (E (rev r)). now rewrite rev_app_distr.
Qed.
Lemma strip_suffix_none p t : strip_suffix p t = None <-> forall r, t <> r ++ p.
Proof.
  split.
  - intros H r E. apply strip_suffix_spec in E. congruence.
  - intros H. destruct (strip_suffix p t) eqn:E; auto. apply strip_suffix_spec in E.
    now apply H in E.
Qed.
Lemma ends_with_spec p t : ends_with p t = true <-> exists r, t = r ++ p.
Proof.
  unfold ends_with. destruct (strip_suffix p t) eqn:E.
  - apply strip_suffix_spec in E. split; eauto.
  - rewrite strip_suffix_none in E. split; [congruence|]. intros [r Hr]. now apply E in Hr.
Qed.
Lemma contains_char_spec c t : contains_char c t = true <-> In c t.
Proof.
  unfold contains_char. rewrite existsb_exists. split.
  - intros (x & Hx & E). apply N.eqb_eq in E. now subst.
  - intros H. exists c. split; auto. apply N.eqb_refl.
Qed.
Lemma contains_char_false c t : contains_char c t = false <-> ~ In c t.
Proof.
  rewrite <- contains_char_spec. destruct (contains_char c t); split; congruence.
Qed.

(** drop_while, trim *)
Lemma drop_while_all f a b : forallb f a = true -> drop_while f (a ++ b) = drop_while f b.
Proof.
  induction a as [|x a IH]; simpl; auto. intros H. apply andb_true_iff in H as [-> H]. auto.
Qed.
Lemma drop_while_head f c t : f c = false -> drop_while f (c :: t) = c :: t.
Proof. simpl. intros ->. auto. Qed.
Lemma drop_while_spec f t : exists a, t = a ++ drop_while f t /\ forallb f a = true /\
  match drop_while f t with [] => True | c :: _ => f c = false end.
Proof.
  induction t as [|x t IH]; simpl.
  - exists []. auto.
  - destruct (f x) eqn:E.
    + destruct IH as (a & H1 & H2 & H3). exists (x :: a). simpl. rewrite E, <- H1. auto.
    + exists []. rewrite E. auto.
Qed.
Lemma forallb_rev {A} (f : A -> bool) l : forallb f (rev l) = forallb f l.
Proof.
  induction l as [|x l IH]; simpl; auto.
  rewrite forallb_app, IH. simpl. rewrite andb_true_r. apply andb_comm.
Qed.
Lemma trim_end_all a b : forallb is_whitespace b = true -> trim_end (a ++ b) = trim_end a.
Proof.
  intros H. unfold trim_end. rewrite rev_app_distr, drop_while_all; auto. now rewrite forallb_rev.
Qed.
Lemma trim_end_last a c : is_whitespace c = false -> trim_end (a ++ [c]) = a ++ [c].
Proof.
  intros H. unfold trim_end. rewrite rev_app_distr. simpl. rewrite H. simpl.
  now rewrite rev_involutive.
Qed.
Lemma trim_end_spec t : exists b, t = trim_end t ++ b /\ forallb is_whitespace b = true /\
  (trim_end t = [] \/ exists a c, trim_end t = a ++ [c] /\ is_whitespace c = false).
Proof.
  unfold trim_end. destruct (drop_while_spec is_whitespace (rev t)) as (a & H1 & H2 & H3).
  exists (rev a). split; [|split].
  - rewrite <- rev_app_distr, <- H1. now rewrite rev_involutive.
  - now rewrite forallb_rev.
  - destruct (drop_while is_whitespace (rev t)) as [|c r]; [left; auto|right].
    simpl. exists (rev r), c. auto.
Qed.

(** Texts without whitespace at either end. *)
Definition trimmed (t : text) : Prop :=
  match t with [] => True | c :: _ => is_whitespace c = false end /\
  match rev t with [] => True | c :: _ => is_whitespace c = false end.
Lemma trimmed_nowhite t : forallb (fun c => negb (is_whitespace c)) t = true -> trimmed t.
Proof.
  intros H. split.
  - destruct t; auto. simpl in H. apply andb_true_iff in H as [H _]. now apply negb_true_iff in H.
  - rewrite <- forallb_rev in H. destruct (rev t); auto. simpl in H.
    apply andb_true_iff in H as [H _]. now apply negb_true_iff in H.
Qed.
Lemma trim_pad a t b :
  forallb is_whitespace a = true -> forallb is_whitespace b = true -> trimmed t ->
  trim (a ++ t ++ b) = t.
Proof.
  intros Ha Hb [H1 H2]. unfold trim, trim_start. rewrite drop_while_all by auto.
  destruct t as [|c t].
  - simpl. replace (drop_while is_whitespace b) with (@nil char); auto.
    symmetry. rewrite <- (app_nil_r b), drop_while_all; auto.
  - simpl app. rewrite drop_while_head by auto. rewrite app_comm_cons, trim_end_all by auto.
    unfold trim_end. destruct (rev (c :: t)) as [|d r] eqn:E.
    + simpl in E. destruct (rev t); discriminate.
    + rewrite drop_while_head by auto. rewrite <- E. apply rev_involutive.
Qed.
Lemma trim_trimmed t : trimmed t -> trim t = t.
Proof. intros. rewrite <- (trim_pad [] t []) at 2; auto. now rewrite app_nil_r. Qed.
Lemma trim_spec t : exists a b, t = a ++ trim t ++ b /\ forallb is_whitespace a = true /\
  forallb is_whitespace b = true /\ trimmed (trim t).
Proof.
  unfold trim, trim_start.
  destruct (drop_while_spec is_whitespace t) as (a & H1 & H2 & H3).
  destruct (trim_end_spec (drop_while is_whitespace t)) as (b & H4 & H5 & H6).
  exists a, b. split; [now rewrite <- H4|]. split; auto. split; auto.
  split.
  - destruct H6 as [->|(u & c & E & Hc)]; auto. rewrite H4 in H3.
    destruct (trim_end (drop_while is_whitespace t)); auto.
  - destruct H6 as [->|(u & c & -> & Hc)]; simpl; auto. rewrite rev_app_distr. simpl. auto.
Qed.

(** Counting line feeds. *)
Definition count_lf (t : text) : N := N.of_nat (count_occ N.eq_dec t c_lf).
Lemma count_lf_app a b : count_lf (a ++ b) = count_lf a + count_lf b.
Proof. unfold count_lf. rewrite count_occ_app. apply Nat2N.inj_add. Qed.
Lemma count_lf_cons c t : count_lf (c :: t) = (if c =? c_lf then 1 else 0) + count_lf t.
Proof.
  unfold count_lf. cbn [count_occ]. destruct (N.eq_dec c c_lf) as [->|n].
  - rewrite N.eqb_refl. lia.
  - apply N.eqb_neq in n. rewrite n. lia.
Qed.

(** Splitting at a separator. *)
Lemma splitn2_app c a b : ~ In c a -> splitn2 c (a ++ c :: b) = (a, Some b).
Proof.
  induction a as [|x a IH]; simpl; intros H.
  - now rewrite N.eqb_refl.
  - destruct (N.eqb_spec x c) as [->|n]; [tauto|]. rewrite IH; auto.
Qed.
Lemma splitn2_none c a : ~ In c a -> splitn2 c a = (a, None).
Proof.
  induction a as [|x a IH]; simpl; intros H; auto.
  destruct (N.eqb_spec x c) as [->|n]; [tauto|]. rewrite IH; auto.
Qed.
Lemma splitn2_spec c t : match splitn2 c t with
  | (h, Some r) => t = h ++ c :: r /\ ~ In c h
  | (h, None) => t = h /\ ~ In c h
  end.
Proof.
  induction t as [|x t IH]; simpl; auto.
  destruct (N.eqb_spec x c) as [->|n].
  - split; auto.
  - destruct (splitn2 c t) as [h [r|]]; destruct IH as [-> IH]; split; auto; simpl; intros [?|?]; auto.
Qed.
Lemma split_char_nil c a : ~ In c a -> split_char c a = (a, []).
Proof.
  induction a as [|x a IH]; simpl; intros H; auto.
  rewrite IH by tauto. destruct (N.eqb_spec x c); [subst; tauto|auto].
Qed.
Lemma split_char_app c a b h r : ~ In c a -> split_char c b = (h, r) ->
  split_char c (a ++ c :: b) = (a, h :: r).
Proof.
  intros Ha E. induction a as [|x a IH]; simpl.
  - now rewrite E, N.eqb_refl.
  - simpl in Ha. rewrite IH by tauto. destruct (N.eqb_spec x c); [subst; tauto|auto].
Qed.

(** Decimal numbers. *)
Lemma digits_val_app a b acc : digits_val acc (a ++ b) =
  match digits_val acc a with Some n => digits_val n b | None => None end.
Proof.
  revert acc; induction a as [|c a IH]; intros acc; simpl; auto.
  destruct (is_digit c); auto.
Qed.
Definition digit_text (t : text) : Prop := forallb is_digit t = true.
Lemma digits_val_some t acc : digit_text t -> exists n, digits_val acc t = Some n.
Proof.
  revert acc; induction t as [|c t IH]; intros acc H; simpl; eauto.
  unfold digit_text in H. simpl in H. apply andb_true_iff in H as [-> H]. apply IH, H.
Qed.
Lemma digits_val_digits t acc n : digits_val acc t = Some n -> digit_text t.
Proof.
  revert acc; induction t as [|c t IH]; intros acc H; unfold digit_text; simpl in *; auto.
  destruct (is_digit c); try discriminate. simpl. eapply IH; eauto.
Qed.

Lemma is_digit_48 n : is_digit (48 + n mod 10) = true.
Proof.
  unfold is_digit. pose proof (N.mod_upper_bound n 10 ltac:(lia)).
  apply andb_true_iff; split; apply N.leb_le; lia.
Qed.

Lemma dec_aux_spec fuel : forall n acc,
  n < 2 ^ N.of_nat fuel -> fuel <> O ->
  exists d, dec_aux fuel n acc = d ++ acc /\ d <> [] /\ digit_text d /\
    forall a, digits_val a d = Some (a * 10 ^ N.of_nat (length d) + n).
Proof.
  induction fuel as [|f IH]; intros n acc Hn Hf; [congruence|].
  cbn [dec_aux]. destruct (N.ltb_spec n 10) as [H|H].
  - exists [48 + n mod 10]. split; [reflexivity|]. split; [congruence|]. split.
    + unfold digit_text. cbn [forallb]. now rewrite is_digit_48.
    + intros a. cbn [digits_val length]. rewrite is_digit_48.
      rewrite (N.mod_small n 10) by lia. f_equal. change (10 ^ N.of_nat 1) with 10. lia.
  - assert (Hf' : f <> O).
    { intros ->. change (2 ^ N.of_nat 1) with 2 in Hn. lia. }
    assert (Hn' : n / 10 < 2 ^ N.of_nat f).
    { rewrite Nat2N.inj_succ, N.pow_succ_r in Hn by lia.
      apply N.div_lt_upper_bound; lia. }
    destruct (IH (n / 10) ((48 + n mod 10) :: acc) Hn' Hf') as (d & E & Hd & Hdig & Hv).
    exists (d ++ [48 + n mod 10]). rewrite E, <- app_assoc. split; [reflexivity|].
    split; [destruct d; discriminate|]. split.
    + unfold digit_text in *. rewrite forallb_app, Hdig. cbn [forallb]. now rewrite is_digit_48.
    + intros a. rewrite digits_val_app, Hv. cbn [digits_val]. rewrite is_digit_48. f_equal.
      rewrite app_length, Nat2N.inj_add. cbn [length]. change (N.of_nat 1) with 1.
      rewrite N.pow_add_r. pose proof (N.div_mod n 10 ltac:(lia)).
      pose proof (N.mod_upper_bound n 10 ltac:(lia)).
      change (10 ^ 1) with 10. nia.
Qed.

Lemma show_N_spec n : digits_val 0 (show_N n) = Some n /\ show_N n <> [] /\ digit_text (show_N n).
Proof.
  unfold show_N.
  destruct (dec_aux_spec (S (N.to_nat (N.log2 n))) n []) as (d & E & Hd & Hdig & Hv).
  - destruct (N.eq_dec n 0) as [->|Hn]; [cbn; lia|].
    rewrite Nat2N.inj_succ, N2Nat.id. apply N.log2_spec. lia.
  - congruence.
  - rewrite E, app_nil_r. rewrite Hv. rewrite N.mul_0_l. auto.
Qed.
Lemma parse_digits_show n : parse_digits (show_N n) = Some n.
Proof.
  destruct (show_N_spec n) as (H & Hn & _). unfold parse_digits.
  destruct (show_N n); congruence.
Qed.

Lemma show_N_head n : exists c r, show_N n = c :: r /\ is_digit c = true.
Proof.
  destruct (show_N_spec n) as (_ & Hn & Hd). destruct (show_N n) as [|c r]; [congruence|].
  exists c, r. split; auto. unfold digit_text in Hd. simpl in Hd. now apply andb_true_iff in Hd.
Qed.
Lemma parse_i32_show z : (-2147483648 <= z <= 2147483647)%Z -> parse_i32 (show_Z z) = Some z.
Proof.
  intros Hz. destruct z as [|p|p].
  - reflexivity.
  - unfold show_Z, parse_i32. destruct (show_N_head (N.pos p)) as (c & r & E & Hc). rewrite E.
    assert (c =? c_minus = false) as -> by (unfold is_digit, c_minus in *; lia).
    assert (c =? c_plus = false) as -> by (unfold is_digit, c_plus in *; lia).
    rewrite <- E, parse_digits_show.
    replace ((-2147483648 <=? Z.of_N (N.pos p))%Z && (Z.of_N (N.pos p) <=? 2147483647)%Z)%bool
      with true by lia.
    reflexivity.
  - unfold show_Z, parse_i32. rewrite N.eqb_refl, parse_digits_show.
    replace ((-2147483648 <=? - Z.of_N (N.pos p))%Z && (- Z.of_N (N.pos p) <=? 2147483647)%Z)%bool
      with true by lia.
    reflexivity.
Qed.
Lemma show_Z_chars z : forall c, In c (show_Z z) -> is_digit c = true \/ c = c_minus.
Proof.
  assert (H : forall n c, In c (show_N n) -> is_digit c = true).
  { intros n c Hc. destruct (show_N_spec n) as (_ & _ & Hd). unfold digit_text in Hd.
    rewrite forallb_forall in Hd. auto. }
  destruct z; simpl; intros c Hc.
  - left. destruct Hc as [<-|[]]. reflexivity.
  - left. eauto.
  - destruct Hc as [<-|Hc]; auto. left. eauto.
Qed.
Lemma show_Z_nonempty z : show_Z z <> [].
Proof.
  destruct z; simpl; try congruence.
  now apply show_N_spec.
Qed.

(** Lists *)
Lemma skip_n_spec {A} n (l : list A) : skip_n n l = skipn (N.to_nat n) l.
Proof.
  revert n; induction l as [|x l IH]; intros n; cbn [skip_n].
  - now rewrite skipn_nil.
  - destruct (N.eqb_spec n 0) as [->|H]; [reflexivity|].
    rewrite IH. replace (N.to_nat n) with (S (N.to_nat (n - 1))) by lia. reflexivity.
Qed.
Lemma take_n_spec {A} n (l : list A) : take_n n l = firstn (N.to_nat n) l.
Proof.
  revert n; induction l as [|x l IH]; intros n; cbn [take_n].
  - now rewrite firstn_nil.
  - destruct (N.eqb_spec n 0) as [->|H]; [reflexivity|].
    rewrite IH. replace (N.to_nat n) with (S (N.to_nat (n - 1))) by lia. reflexivity.
Qed.
