(** Utf8Facts.v -- UTF-8: decoding inverts encoding, and code point order is byte order. *)

From Coq Require Import String List NArith ZArith Bool Lia ZifyBool ZifyN.
From Verif Require Import Text TextFacts Utf8 SpecUtf8.
Import ListNotations.
Local Open Scope N_scope.
Ltac Zify.zify_post_hook ::= Z.div_mod_to_equations.

Lemma scalar_iff c : scalar c = true <-> c < 55296 \/ (57344 <= c /\ c < 1114112).
Proof. unfold scalar. lia. Qed.

Lemma enc1_cases c : scalar c = true ->
  (c < 128 /\ enc1 c = [c]) \/
  (exists b0 b1, enc1 c = [b0; b1] /\ 194 <= b0 < 224 /\ 128 <= b1 < 192 /\ c = (b0 - 192) * 64 + (b1 - 128)) \/
  (exists b0 b1 b2, enc1 c = [b0; b1; b2] /\ 224 <= b0 < 240 /\ 128 <= b1 < 192 /\ 128 <= b2 < 192 /\
     c = (b0 - 224) * 4096 + (b1 - 128) * 64 + (b2 - 128) /\ 2048 <= c) \/
  (exists b0 b1 b2 b3, enc1 c = [b0; b1; b2; b3] /\ 240 <= b0 < 245 /\ 128 <= b1 < 192 /\ 128 <= b2 < 192 /\ 128 <= b3 < 192 /\
     c = (b0 - 240) * 262144 + (b1 - 128) * 4096 + (b2 - 128) * 64 + (b3 - 128) /\ 65536 <= c).
Proof.
  intros S. apply scalar_iff in S. unfold enc1.
  destruct (N.ltb_spec c 128); [left; now split|right].
  destruct (N.ltb_spec c 2048); [left|right].
  - eexists _, _. split; [reflexivity|]. lia.
  - destruct (N.ltb_spec c 65536); [left|right].
    + eexists _, _, _. split; [reflexivity|]. lia.
    + eexists _, _, _, _. split; [reflexivity|]. lia.
Qed.
Lemma enc1_nonempty c : enc1 c <> [].
Proof. unfold enc1. destruct (c <? 128), (c <? 2048), (c <? 65536); discriminate. Qed.

Lemma dec_enc t : scalars t -> forall f, (length (enc t) <= f)%nat -> dec_fuel f (enc t) = Some t.
Proof.
  intros H. induction H as [|c t Hc Ht IH]; intros f L; [now destruct f|]. apply scalar_iff in Hc.
  change (enc (c :: t)) with (enc1 c ++ enc t) in *. rewrite app_length in L.
  destruct (enc1_cases c Hc) as [[A E]|[(b0 & b1 & E & R0 & R1 & V)|[(b0 & b1 & b2 & E & R0 & R1 & R2 & V & G)|(b0 & b1 & b2 & b3 & E & R0 & R1 & R2 & R3 & V & G)]]];
    rewrite E in *; cbn [length] in L; (destruct f as [|f]; [lia|]); cbn [app dec_fuel].
  - destruct (N.ltb_spec c 128); [|lia]. rewrite IH by lia. reflexivity.
  - destruct (N.ltb_spec b0 128); [lia|]. replace ((194 <=? b0) && (b0 <? 224)) with true by lia.
    replace (is_cont b1) with true by (unfold is_cont; lia). rewrite IH by lia. now rewrite <- V.
  - destruct (N.ltb_spec b0 128); [lia|]. replace ((194 <=? b0) && (b0 <? 224)) with false by lia.
    replace ((224 <=? b0) && (b0 <? 240)) with true by lia. rewrite <- V, Hc.
    replace (is_cont b1) with true by (unfold is_cont; lia). replace (is_cont b2) with true by (unfold is_cont; lia).
    replace (2048 <=? c) with true by lia. cbn [andb]. rewrite IH by lia. reflexivity.
  - destruct (N.ltb_spec b0 128); [lia|]. replace ((194 <=? b0) && (b0 <? 224)) with false by lia.
    replace ((224 <=? b0) && (b0 <? 240)) with false by lia. replace ((240 <=? b0) && (b0 <? 245)) with true by lia.
    rewrite <- V, Hc.
    replace (is_cont b1) with true by (unfold is_cont; lia). replace (is_cont b2) with true by (unfold is_cont; lia).
    replace (is_cont b3) with true by (unfold is_cont; lia).
    replace (65536 <=? c) with true by lia. cbn [andb]. rewrite IH by lia. reflexivity.
Qed.
Lemma from_utf8_enc t : scalars t -> from_utf8 (enc t) = Some t.
Proof. intros H. now apply dec_enc. Qed.

Lemma dec_sound f : forall b t, dec_fuel f b = Some t -> enc t = b /\ scalars t.
Proof.
  induction f as [|f IH]; intros b t H.
  { destruct b; [|discriminate]. injection H as <-. split; [reflexivity|constructor]. }
  destruct b as [|b0 r0]; [injection H as <-; split; [reflexivity|constructor]|]. cbn [dec_fuel] in H.
  assert (CONS : forall c r bs, match dec_fuel f r with Some u => Some (c :: u) | None => None end = Some t ->
     enc1 c = bs -> scalar c = true -> enc t = bs ++ r /\ scalars t).
  { intros c r bs E B Sc. destruct (dec_fuel f r) as [u|] eqn:D; [|discriminate]. injection E as <-. destruct (IH r u D) as [<- Su].
    split; [change (enc (c :: u)) with (enc1 c ++ enc u); now rewrite B|constructor; [now apply scalar_iff|exact Su]]. }
  destruct (N.ltb_spec b0 128) as [A|A].
  { apply (CONS b0 r0 [b0] H); [unfold enc1; destruct (N.ltb_spec b0 128); [reflexivity|lia]|unfold scalar; lia]. }
  destruct ((194 <=? b0) && (b0 <? 224)) eqn:B.
  { destruct r0 as [|b1 r1]; [discriminate|]. destruct (is_cont b1) eqn:C1; [|discriminate]. unfold is_cont in C1.
    apply (CONS ((b0 - 192) * 64 + (b1 - 128)) r1 [b0; b1] H); [|unfold scalar; lia].
    unfold enc1. destruct (N.ltb_spec ((b0 - 192) * 64 + (b1 - 128)) 128); [lia|].
    destruct (N.ltb_spec ((b0 - 192) * 64 + (b1 - 128)) 2048); [|lia]. f_equal; [lia|]. f_equal. lia. }
  destruct ((224 <=? b0) && (b0 <? 240)) eqn:B2.
  { destruct r0 as [|b1 [|b2 r2]]; try discriminate. cbn zeta in H. set (c := (b0 - 224) * 4096 + (b1 - 128) * 64 + (b2 - 128)) in *.
    destruct (is_cont b1 && is_cont b2 && (2048 <=? c) && scalar c) eqn:C; [|discriminate].
    apply andb_true_iff in C. destruct C as [C Sc]. unfold is_cont in C.
    apply (CONS c r2 [b0; b1; b2] H); [|exact Sc].
    unfold enc1. destruct (N.ltb_spec c 128); [lia|]. destruct (N.ltb_spec c 2048); [lia|]. destruct (N.ltb_spec c 65536); [|lia].
    f_equal; [lia|]. f_equal; [lia|]. f_equal. lia. }
  destruct ((240 <=? b0) && (b0 <? 245)) eqn:B3; [|discriminate].
  destruct r0 as [|b1 [|b2 [|b3 r3]]]; try discriminate. cbn zeta in H. set (c := (b0 - 240) * 262144 + (b1 - 128) * 4096 + (b2 - 128) * 64 + (b3 - 128)) in *.
  destruct (is_cont b1 && is_cont b2 && is_cont b3 && (65536 <=? c) && scalar c) eqn:C; [|discriminate].
  apply andb_true_iff in C. destruct C as [C Sc]. unfold is_cont in C.
  apply (CONS c r3 [b0; b1; b2; b3] H); [|exact Sc].
  unfold enc1. destruct (N.ltb_spec c 128); [lia|]. destruct (N.ltb_spec c 2048); [lia|]. destruct (N.ltb_spec c 65536); [lia|].
  f_equal; [lia|]. f_equal; [lia|]. f_equal; [lia|]. f_equal. lia.
Qed.
Lemma from_utf8_iff b t : from_utf8 b = Some t <-> enc t = b /\ scalars t.
Proof. split; [apply dec_sound|]. intros [<- H]. now apply from_utf8_enc. Qed.

(** The RFC's table is the inverse of the encoder. *)
Lemma utf8_char_iff a c : utf8_char a c <-> scalar c = true /\ a = enc1 c.
Proof.
  split.
  - intros H. unfold scalar, enc1.
    destruct H as [a H|a b H T|a b c H T|a b c d H T1 T2]; unfold tail_byte in *.
    + split; [lia|]. destruct (N.ltb_spec a 128); [reflexivity|lia].
    + split; [lia|]. destruct (N.ltb_spec ((a - 192) * 64 + (b - 128)) 128); [lia|].
      destruct (N.ltb_spec ((a - 192) * 64 + (b - 128)) 2048); [|lia]. f_equal; [lia|]. f_equal. lia.
    + set (x := (a - 224) * 4096 + (b - 128) * 64 + (c - 128)). split; [lia|].
      destruct (N.ltb_spec x 128); [lia|]. destruct (N.ltb_spec x 2048); [lia|]. destruct (N.ltb_spec x 65536); [|lia].
      f_equal; [lia|]. f_equal; [lia|]. f_equal. lia.
    + set (x := (a - 240) * 262144 + (b - 128) * 4096 + (c - 128) * 64 + (d - 128)). split; [lia|].
      destruct (N.ltb_spec x 128); [lia|]. destruct (N.ltb_spec x 2048); [lia|]. destruct (N.ltb_spec x 65536); [lia|].
      f_equal; [lia|]. f_equal; [lia|]. f_equal; [lia|]. f_equal. lia.
  - intros [Hs ->]. pose proof (proj1 (scalar_iff c) Hs) as R.
    destruct (enc1_cases c Hs) as [[A ->]|[(b0 & b1 & -> & R0 & R1 & V)|[(b0 & b1 & b2 & -> & R0 & R1 & R2 & V & G)|(b0 & b1 & b2 & b3 & -> & R0 & R1 & R2 & R3 & V & G)]]].
    + constructor. lia.
    + rewrite V. constructor; unfold tail_byte; lia.
    + rewrite V. constructor; unfold tail_byte; lia.
    + rewrite V. constructor; unfold tail_byte; lia.
Qed.
Lemma utf8_text_iff b t : utf8_text b t <-> enc t = b /\ scalars t.
Proof.
  split.
  - intros H. induction H as [|a c b t Hc Ht [IH1 IH2]]; [split; [reflexivity|constructor]|].
    apply utf8_char_iff in Hc. destruct Hc as [Hs ->]. subst b.
    split; [reflexivity|]. constructor; [now apply scalar_iff|exact IH2].
  - intros [<- H]. induction H as [|c t Hc Ht IH]; [constructor|].
    change (enc (c :: t)) with (enc1 c ++ enc t). constructor; [|exact IH]. apply utf8_char_iff. split; [now apply scalar_iff|reflexivity].
Qed.
Lemma decoding b t : from_utf8 b = Some t <-> utf8_text b t.
Proof. rewrite utf8_text_iff. apply from_utf8_iff. Qed.
Lemma encoding t : scalars t -> utf8_text (enc t) t.
Proof. intros H. now apply utf8_text_iff. Qed.

Lemma bytes_ltb_app p a b : bytes_ltb (p ++ a) (p ++ b) = bytes_ltb a b.
Proof. induction p as [|x p IH]; [reflexivity|]. cbn [app bytes_ltb]. now rewrite N.ltb_irrefl. Qed.
Lemma enc1_lt c d a b : scalar c = true -> scalar d = true -> c < d -> bytes_ltb (enc1 c ++ a) (enc1 d ++ b) = true /\ bytes_ltb (enc1 d ++ b) (enc1 c ++ a) = false.
Proof.
  intros Sc Sd L. apply scalar_iff in Sc, Sd. unfold enc1.
  destruct (N.ltb_spec c 128), (N.ltb_spec d 128); try lia;
  [cbn [app bytes_ltb]; destruct (N.ltb_spec c d); [|lia]; destruct (N.ltb_spec d c); [lia|]; now split| |].
  - destruct (N.ltb_spec d 2048), (N.ltb_spec d 65536); cbn [app bytes_ltb];
      match goal with |- context [?x <? ?y] => destruct (N.ltb_spec x y); [|lia] end;
      match goal with |- context [?x <? ?y] => destruct (N.ltb_spec x y); [lia|] end; now split.
  - assert (T : forall x y u v, (x < y -> bytes_ltb (x :: u) (y :: v) = true /\ bytes_ltb (y :: v) (x :: u) = false) /\
                 (x = y -> bytes_ltb (x :: u) (y :: v) = bytes_ltb u v /\ bytes_ltb (y :: v) (x :: u) = bytes_ltb v u)).
    { intros x y u v. split.
      - intros Q. cbn [bytes_ltb]. destruct (N.ltb_spec x y); [|lia]. destruct (N.ltb_spec y x); [lia|]. now split.
      - intros ->. cbn [bytes_ltb]. rewrite N.ltb_irrefl. now split. }
    assert (STEP : forall x y u v, x < y \/ (x = y /\ bytes_ltb u v = true /\ bytes_ltb v u = false) ->
       bytes_ltb (x :: u) (y :: v) = true /\ bytes_ltb (y :: v) (x :: u) = false).
    { intros x y u v [Q|(-> & Q1 & Q2)]; [now apply T|]. destruct (proj2 (T y y u v) eq_refl) as [-> ->]. now split. }
    destruct (N.ltb_spec c 2048), (N.ltb_spec d 2048); try lia.
    + cbn [app]. apply STEP. destruct (N.lt_trichotomy (192 + c / 64) (192 + d / 64)) as [Q|[Q|Q]]; [now left| |lia].
      right. split; [exact Q|]. apply STEP. left. lia.
    + destruct (N.ltb_spec d 65536); cbn [app]; apply STEP; left; lia.
    + destruct (N.ltb_spec c 65536), (N.ltb_spec d 65536); try lia; cbn [app].
      * apply STEP. destruct (N.lt_trichotomy (224 + c / 4096) (224 + d / 4096)) as [Q|[Q|Q]]; [now left| |lia].
        right. split; [exact Q|]. apply STEP.
        destruct (N.lt_trichotomy (128 + (c / 64) mod 64) (128 + (d / 64) mod 64)) as [Q2|[Q2|Q2]]; [now left| |lia].
        right. split; [exact Q2|]. apply STEP. left. lia.
      * apply STEP. left. lia.
      * apply STEP. destruct (N.lt_trichotomy (240 + c / 262144) (240 + d / 262144)) as [Q|[Q|Q]]; [now left| |lia].
        right. split; [exact Q|]. apply STEP.
        destruct (N.lt_trichotomy (128 + (c / 4096) mod 64) (128 + (d / 4096) mod 64)) as [Q2|[Q2|Q2]]; [now left| |lia].
        right. split; [exact Q2|]. apply STEP.
        destruct (N.lt_trichotomy (128 + (c / 64) mod 64) (128 + (d / 64) mod 64)) as [Q3|[Q3|Q3]]; [now left| |lia].
        right. split; [exact Q3|]. apply STEP. left. lia.
Qed.
Lemma text_ltb_bytes a b : scalars a -> scalars b -> text_ltb a b = bytes_ltb (enc a) (enc b).
Proof.
  intros Ha. revert b. induction Ha as [|c a Hc Ha IH]; intros b Hb.
  - destruct b as [|d b]; [reflexivity|]. change (enc (d :: b)) with (enc1 d ++ enc b). cbn [text_ltb enc flat_map].
    assert (N := enc1_nonempty d). destruct (enc1 d); [now destruct N|reflexivity].
  - destruct b as [|d b].
    + change (enc (c :: a)) with (enc1 c ++ enc a). cbn [text_ltb]. change (enc []) with (@nil N). now destruct (enc1 c ++ enc a).
    + inversion Hb as [|? ? Hd Hb']; subst. apply scalar_iff in Hd. apply scalar_iff in Hc. change (enc (c :: a)) with (enc1 c ++ enc a). change (enc (d :: b)) with (enc1 d ++ enc b).
      cbn [text_ltb]. destruct (N.ltb_spec c d) as [L|L]; [symmetry; now apply enc1_lt|].
      destruct (N.ltb_spec d c) as [M|M]; [symmetry; now apply enc1_lt|].
      assert (c = d) by lia. subst d. rewrite bytes_ltb_app. now apply IH.
Qed.
