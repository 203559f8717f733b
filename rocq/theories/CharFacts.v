(** CharFacts.v -- the character classes and numerals of the model are those of SpecChars.v. *)

From Coq Require Import String List NArith ZArith Bool Lia Arith.
From Coq Require Import ZifyBool ZifyNat ZifyN.
From Verif Require Import Text TextFacts Syntax SpecChars.
Import ListNotations.
Local Open Scope N_scope.

Lemma white_ws c : white c = is_whitespace c.
Proof. unfold white, white_points, is_whitespace. cbn [existsb]. lia. Qed.
Lemma blank_ws w : blank w -> forallb is_whitespace w = true.
Proof. unfold blank. rewrite !forallb_forall. intros H x Hx. rewrite <- white_ws. auto. Qed.
Lemma ws_blank w : forallb is_whitespace w = true -> blank w.
Proof. unfold blank. rewrite !forallb_forall. intros H x Hx. rewrite white_ws. auto. Qed.
#[global] Hint Resolve blank_ws ws_blank : core.

Lemma forallb_eq {A} (f g : A -> bool) l : (forall x, f x = g x) -> forallb f l = forallb g l.
Proof. intros H. induction l as [|x l IH]; [reflexivity|]. cbn [forallb]. now rewrite H, IH. Qed.

Lemma word_alnum ext c : word_point ext c = is_alnum ext c.
Proof.
  unfold word_point, is_alnum, is_digit, is_ascii_alpha. rewrite white_ws.
  unfold digit_points, letter_points. cbn [existsb app].
  destruct (c <? 128) eqn:E; destruct (ext c), (is_whitespace c); lia.
Qed.
Lemma var_point_char ext c : var_point ext c = var_char ext c.
Proof.
  unfold var_point, var_char. rewrite word_alnum. change (lit "_.") with [c_under; c_dot].
  cbn [existsb]. now rewrite orb_false_r, orb_assoc.
Qed.
Lemma fun_point_char ext c : fun_point ext c = fun_char ext c.
Proof.
  unfold fun_point, fun_char. rewrite word_alnum. change (lit "_:") with [c_under; c_colon].
  cbn [existsb]. now rewrite orb_false_r, orb_assoc.
Qed.
Lemma arg_point_char ext c : arg_point ext c = arg_char ext c.
Proof.
  unfold arg_point, arg_char. rewrite word_alnum. change (lit "_") with [c_under].
  cbn [existsb]. now rewrite orb_false_r.
Qed.
Lemma var_name ext v : forallb (var_point ext) v = forallb (var_char ext) v.
Proof. apply forallb_eq. intros. apply var_point_char. Qed.
Lemma fun_name ext v : forallb (fun_point ext) v = forallb (fun_char ext) v.
Proof. apply forallb_eq. intros. apply fun_point_char. Qed.
Lemma arg_name ext v : forallb (arg_point ext) v = forallb (arg_char ext) v.
Proof. apply forallb_eq. intros. apply arg_point_char. Qed.

(** Numerals. *)
Lemma numeral_digits t n : numeral t n -> t <> [] /\ forallb is_digit t = true /\ forall a, digits_val a t = Some (a * 10 ^ N.of_nat (length t) + n).
Proof.
  induction 1 as [d Hd|t n d H (IH1 & IH2 & IH3) Hd].
  - split; [discriminate|]. assert (E : is_digit (48 + d) = true) by (unfold is_digit; lia). cbn [forallb]. rewrite E.
    split; [reflexivity|]. intros a. cbn [digits_val length]. rewrite E. f_equal. change (10 ^ N.of_nat 1) with 10. lia.
  - assert (E : is_digit (48 + d) = true) by (unfold is_digit; lia).
    split; [destruct t; discriminate|]. split; [rewrite forallb_app, IH2; cbn [forallb]; now rewrite E|].
    intros a. rewrite digits_val_app, IH3. cbn [digits_val]. rewrite E. f_equal.
    rewrite app_length, Nat2N.inj_add, N.pow_add_r. cbn [length]. change (10 ^ N.of_nat 1) with 10. nia.
Qed.
Lemma numeral_parse t n : numeral t n -> parse_digits t = Some n.
Proof.
  intros H. apply numeral_digits in H as (H1 & _ & H2). unfold parse_digits. destruct t; [congruence|]. rewrite H2. f_equal; lia.
Qed.
Lemma parse_numeral t n : parse_digits t = Some n -> numeral t n.
Proof.
  intros H. assert (Ht : t <> []) by (intros ->; discriminate).
  assert (H' : digits_val 0 t = Some n) by (destruct t; [congruence|exact H]). clear H.
  revert n Ht H'. induction t as [|c t IH] using rev_ind; intros n Ht H'; [congruence|].
  rewrite digits_val_app in H'. destruct (digits_val 0 t) as [m|] eqn:E; [|discriminate].
  cbn [digits_val] in H'. destruct (is_digit c) eqn:D; [|discriminate]. injection H' as <-.
  assert (exists d, c = 48 + d /\ d < 10) as (d & -> & Hd) by (exists (c - 48); unfold is_digit in D; lia).
  replace (48 + d - 48) with d by lia.
  destruct t as [|c' t].
  - cbn in E. injection E as <-. now constructor.
  - constructor; auto. apply IH; [discriminate|reflexivity].
Qed.
Lemma integer_parse t z : integer t z -> (-2147483648 <= z <= 2147483647)%Z -> parse_i32 t = Some z.
Proof.
  intros H Hz. destruct H as [t n H|t n H|t n H]; pose proof (numeral_parse _ _ H) as P; apply numeral_digits in H as (H1 & H2 & _).
  - destruct t as [|c t]; [congruence|]. cbn [forallb] in H2. apply andb_true_iff in H2 as [H2 _]. unfold parse_i32.
    assert (c =? c_minus = false) as -> by (unfold is_digit, c_minus in *; lia).
    assert (c =? c_plus = false) as -> by (unfold is_digit, c_plus in *; lia).
    rewrite P. replace ((-2147483648 <=? Z.of_N n)%Z && (Z.of_N n <=? 2147483647)%Z)%bool with true by lia. reflexivity.
  - unfold parse_i32. change (43 =? c_minus) with false. change (43 =? c_plus) with true. cbv iota.
    rewrite P. replace ((-2147483648 <=? Z.of_N n)%Z && (Z.of_N n <=? 2147483647)%Z)%bool with true by lia. reflexivity.
  - unfold parse_i32. change (45 =? c_minus) with true. cbv iota.
    rewrite P. replace ((-2147483648 <=? - Z.of_N n)%Z && (- Z.of_N n <=? 2147483647)%Z)%bool with true by lia. reflexivity.
Qed.
Lemma parse_integer t z : parse_i32 t = Some z -> integer t z /\ (-2147483648 <= z <= 2147483647)%Z.
Proof.
  destruct t as [|c t]; [discriminate|]. unfold parse_i32.
  destruct (N.eqb_spec c c_minus) as [->|_]; [|destruct (N.eqb_spec c c_plus) as [->|_]];
    match goal with |- context [parse_digits ?x] => destruct (parse_digits x) as [n|] eqn:P; [|discriminate] end;
    apply parse_numeral in P; match goal with |- context [if ?b then _ else _] => destruct b eqn:B; [|discriminate] end;
    intros [= <-]; (split; [now constructor|lia]).
Qed.
Lemma integer_chars t z : integer t z -> forall c, In c t -> is_digit c = true \/ c = c_minus \/ c = c_plus.
Proof.
  intros H c Hc.
  destruct H as [t n H|t n H|t n H]; apply numeral_digits in H as (_ & H2 & _); rewrite forallb_forall in H2;
    [auto|destruct Hc as [<-|Hc]; auto|destruct Hc as [<-|Hc]; auto].
Qed.
Lemma integer_nonempty t z : integer t z -> t <> [].
Proof. intros H. destruct H as [t n H|t n H|t n H]; [|discriminate|discriminate]. now apply numeral_digits in H. Qed.

Lemma show_numeral n : numeral (show_N n) n.
Proof. apply parse_numeral, parse_digits_show. Qed.
Lemma show_integer z : integer (show_Z z) z.
Proof.
  destruct z as [|p|p]; cbn [show_Z].
  - apply (in_plain [48] 0). apply (nu_one 0). lia.
  - apply (in_plain _ (N.pos p)), show_numeral.
  - apply (in_minus _ (N.pos p)), show_numeral.
Qed.

(** [show_N] is the only numeral without superfluous zeros. *)
Lemma dec_canonical f : forall n acc, n < 2 ^ N.of_nat f -> f <> O ->
  exists d, dec_aux f n acc = d ++ acc /\ d <> [] /\ canonical d /\ (0 < n -> forall r, d <> 48 :: r).
Proof.
  induction f as [|f IH]; intros n acc Hn Hf; [congruence|]. cbn [dec_aux].
  destruct (N.ltb_spec n 10).
  - exists [48 + n mod 10]. rewrite N.mod_small by lia. split; [reflexivity|]. split; [discriminate|]. split.
    + intros r E. now injection E.
    + intros Hp r E. assert (Q : 48 + n = 48) by congruence. lia.
  - assert (H10 : 0 < n / 10) by (apply N.div_str_pos; lia).
    assert (H2 : n / 10 < 2 ^ N.of_nat f).
    { rewrite Nat2N.inj_succ, N.pow_succ_r' in Hn. apply N.div_lt_upper_bound; lia. }
    destruct f as [|f]; [cbn in H2; lia|].
    destruct (IH (n / 10) ((48 + n mod 10) :: acc) H2 ltac:(discriminate)) as (d & -> & Hd & Hc & Hz).
    exists (d ++ [48 + n mod 10]). split; [now rewrite <- app_assoc|].
    assert (Q : forall r, d ++ [48 + n mod 10] <> 48 :: r).
    { intros r E. destruct d as [|x d]; [congruence|].
      cbn [app] in E. injection E as -> _. now apply (Hz H10 d). }
    split; [destruct d; discriminate|]. split; [intros r E; now apply Q in E|intros _; exact Q].
Qed.
Lemma show_canonical n : canonical (show_N n).
Proof.
  unfold show_N. destruct (dec_canonical (S (N.to_nat (N.log2 n))) n []) as (d & -> & _ & H & _).
  - destruct (N.eq_dec n 0) as [->|Hn]; [cbn; lia|].
    rewrite Nat2N.inj_succ, N2Nat.id. apply N.log2_spec. lia.
  - discriminate.
  - now rewrite app_nil_r.
Qed.
Lemma numeral_pos t n : numeral t n -> canonical t -> n = 0 -> t = [48].
Proof.
  intros H. induction H as [d Hd|t n d H IH Hd]; intros C E.
  - subst. reflexivity.
  - exfalso. assert (n = 0) by lia. assert (d = 0) by lia. subst. destruct t as [|c t]; [now apply numeral_digits in H|].
    assert (C' : canonical (c :: t)).
    { intros r E'. injection E' as -> ->. specialize (C (r ++ [48]) eq_refl). destruct r; discriminate. }
    specialize (IH C' eq_refl). injection IH as -> ->. now specialize (C [48] eq_refl).
Qed.
Lemma canonical_unique t : forall t' n, numeral t n -> numeral t' n -> canonical t -> canonical t' -> t = t'.
Proof.
  assert (Cut : forall t x, canonical (t ++ [x]) -> t <> [] -> canonical t).
  { intros u x C Hu r E. subst. specialize (C (r ++ [x]) eq_refl). destruct r; discriminate. }
  induction t as [|c t IH] using rev_ind; intros t' n H H' C C'; [now apply numeral_digits in H|].
  inversion H as [d Hd E|u m d Hm Hd E].
  - assert (t = [] /\ c = 48 + d) as [-> ->] by (destruct t as [|? [|? ?]]; [injection E; auto|discriminate|discriminate]). subst n.
    inversion H' as [d' Hd' E'|u' m' d' Hm' Hd' E']; [subst; reflexivity|].
    assert (m' = 0) by lia. subst m'. subst. exfalso.
    pose proof (numeral_digits _ _ Hm') as (Hu & _).
    pose proof (numeral_pos _ _ Hm' (Cut _ _ C' Hu) eq_refl). subst u'. specialize (C' _ eq_refl). discriminate.
  - apply app_inj_tail in E as [<- <-].
    pose proof (numeral_digits _ _ Hm) as (Hu & _).
    inversion H' as [d' Hd' E'|u' m' d' Hm' Hd' E'].
    + assert (m = 0) by lia. subst m. exfalso.
      pose proof (numeral_pos _ _ Hm (Cut _ _ C Hu) eq_refl). subst. specialize (C _ eq_refl). discriminate.
    + assert (m = m' /\ d = d') as [<- <-] by lia. f_equal.
      pose proof (numeral_digits _ _ Hm') as (Hu' & _). subst.
      apply (IH u' m Hm Hm'); [exact (Cut _ _ C Hu)|exact (Cut _ _ C' Hu')].
Qed.
Lemma show_only t n : numeral t n /\ canonical t <-> t = show_N n.
Proof.
  split; [intros [H C]; apply (canonical_unique t (show_N n) n H (show_numeral n) C (show_canonical n))|intros ->; split; [apply show_numeral|apply show_canonical]].
Qed.
