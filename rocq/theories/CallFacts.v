(** CallFacts.v -- argument validation of built-ins and function resolution
    (functions/parsers/*, parse/mod.rs:240-277) against SpecTemplate.v. *)

From Coq Require Import String List NArith ZArith Bool Lia Arith.
From Coq Require Import ZifyBool ZifyNat ZifyN.
From Verif Require Import Text TextFacts Base Syntax Parse SpecTemplate.
Import ListNotations.

Lemma builtin_names_eq : builtin_names = map builtin_name function_parsers.
Proof. reflexivity. Qed.

Lemma find_builtin_some name l b : find_builtin name l = Some b -> name = builtin_name b /\ In b l.
Proof.
  induction l as [|x l IH]; simpl; [discriminate|].
  destruct (text_eqb name (builtin_name x)) eqn:E.
  - intros H. injection H as ->. apply text_eqb_eq in E. auto.
  - intros H. destruct (IH H). auto.
Qed.
Lemma find_builtin_none name l : find_builtin name l = None <-> ~ In name (map builtin_name l).
Proof.
  induction l as [|x l IH]; simpl; [tauto|].
  destruct (text_eqb name (builtin_name x)) eqn:E.
  - apply text_eqb_eq in E. subst. split; [discriminate|tauto].
  - apply text_eqb_neq in E. rewrite IH. split; intros H; [intros [?|?]; auto|tauto].
Qed.
Lemma find_builtin_name b : In b function_parsers -> find_builtin (builtin_name b) function_parsers = Some b.
Proof.
  simpl. intros H.
  repeat (destruct H as [<-|H]; [reflexivity|]). tauto.
Qed.
Lemma is_ident_spec s : is_ident s = true <-> exists b, In b function_parsers /\ s = builtin_name b.
Proof.
  unfold is_ident. rewrite existsb_exists. split.
  - intros (b & Hb & E). apply text_eqb_eq in E. eauto.
  - intros (b & Hb & ->). exists b. split; auto. apply text_eqb_refl.
Qed.

(** The named arguments of [for]. *)
Definition norm_for (f : for_fn) (nl : list (text * rawarg)) : for_fn :=
  ForFn (ff_var f) (ff_src f) (ff_type f)
    (match ff_skip f with Some n => Some n | None => int_opt (opt_value (lit "skip") nl) end)
    (match ff_limit f with Some n => Some n | None => int_opt (opt_value (lit "limit") nl) end)
    (match ff_sort f with Some n => Some n | None => var_opt (opt_value (lit "sortby") nl) end)
    (match opt_last (lit "order") nl with Some a => is_desc (Some a) | None => ff_desc f end).
Definition taken {A} (o : option A) : nat := match o with Some _ => 1 | None => 0 end.
Definition fits (f : for_fn) (nl : list (text * rawarg)) : Prop :=
  Forall for_option_ok nl /\
  (taken (ff_skip f) + opt_count (lit "skip") nl <= 1)%nat /\
  (taken (ff_limit f) + opt_count (lit "limit") nl <= 1)%nat /\
  (taken (ff_sort f) + opt_count (lit "sortby") nl <= 1)%nat.

Lemma opt_count_cons n x a l :
  opt_count n ((x, a) :: l) = ((if text_eqb x n then 1 else 0) + opt_count n l)%nat.
Proof. unfold opt_count. cbn [filter fst]. destruct (text_eqb x n); reflexivity. Qed.
Lemma opt_value_cons n x a l :
  opt_value n ((x, a) :: l) = if text_eqb x n then Some a else opt_value n l.
Proof. unfold opt_value. cbn [filter fst]. destruct (text_eqb x n); reflexivity. Qed.
Lemma opt_value_app n l1 l2 :
  opt_value n (l1 ++ l2) = match opt_value n l1 with Some a => Some a | None => opt_value n l2 end.
Proof.
  induction l1 as [|[x a] l1 IH]; [reflexivity|]. cbn [app]. rewrite !opt_value_cons.
  destruct (text_eqb x n); auto.
Qed.
Lemma opt_last_cons n x a l :
  opt_last n ((x, a) :: l) =
  match opt_last n l with Some b => Some b | None => if text_eqb x n then Some a else None end.
Proof.
  unfold opt_last. cbn [rev]. rewrite opt_value_app. rewrite opt_value_cons. reflexivity.
Qed.
Lemma opt_value_none n l : opt_count n l = O -> opt_value n l = None.
Proof. unfold opt_count, opt_value. destruct (filter _ l); [auto|discriminate]. Qed.

Lemma lit_neq_dec (a b : string) : text_eqb (lit a) (lit b) = false -> lit a <> lit b.
Proof. apply text_eqb_neq. Qed.

Ltac eqb_lits :=
  repeat match goal with
  | |- context [text_eqb (lit ?a) (lit ?b)] =>
      let v := eval vm_compute in (text_eqb (lit a) (lit b)) in
      change (text_eqb (lit a) (lit b)) with v
  | H : context [text_eqb (lit ?a) (lit ?b)] |- _ =>
      let v := eval vm_compute in (text_eqb (lit a) (lit b)) in
      change (text_eqb (lit a) (lit b)) with v in H
  end; cbn iota in *.

Lemma for_named_ok f na f' :
  for_named f na = Ok f' <->
  for_option_ok na /\ f' = norm_for f [na] /\ fits f [na].
Proof.
  destruct na as [x a]. unfold for_named. split.
  - destruct (text_eqb x (lit "skip")) eqn:E1;
      [|destruct (text_eqb x (lit "limit")) eqn:E2;
        [|destruct (text_eqb x (lit "sortby")) eqn:E3;
          [|destruct (text_eqb x (lit "order")) eqn:E4; [|discriminate]]]].
    + apply text_eqb_eq in E1; subst x. destruct a as [|?| |z]; cbn; try discriminate.
      destruct (ff_skip f) eqn:Es; [discriminate|].
      unfold to_usize. destruct (z <? 0)%Z eqn:Ez; cbn; [discriminate|]. intros H. injection H as <-.
      assert (Hok : for_option_ok (lit "skip", AInt z)).
      { left. split; auto. exists z. split; auto. lia. }
      split; [exact Hok|]. split.
      * unfold norm_for. rewrite Es. cbn. destruct (ff_limit f), (ff_sort f); reflexivity.
      * unfold fits. rewrite !opt_count_cons. cbn [opt_count filter length]. eqb_lits.
        rewrite Es. cbn. destruct (ff_limit f), (ff_sort f); cbn; repeat split; try lia; auto.
    + apply text_eqb_eq in E2; subst x. destruct a as [|?| |z]; cbn; try discriminate.
      destruct (ff_limit f) eqn:Es; [discriminate|].
      unfold to_usize. destruct (z <? 0)%Z eqn:Ez; cbn; [discriminate|]. intros H. injection H as <-.
      assert (Hok : for_option_ok (lit "limit", AInt z)).
      { right; left. split; auto. exists z. split; auto. lia. }
      split; [exact Hok|]. split.
      * unfold norm_for. rewrite Es. cbn. destruct (ff_skip f), (ff_sort f); reflexivity.
      * unfold fits. rewrite !opt_count_cons. cbn [opt_count filter length]. eqb_lits.
        rewrite Es. cbn. destruct (ff_skip f), (ff_sort f); cbn; repeat split; try lia; auto.
    + apply text_eqb_eq in E3; subst x. destruct a as [v|?| |z]; cbn; try discriminate.
      destruct (ff_sort f) eqn:Es; [discriminate|]. intros H. injection H as <-.
      assert (Hok : for_option_ok (lit "sortby", AVar v)).
      { right; right; left. split; auto. exists v. auto. }
      split; [exact Hok|]. split.
      * unfold norm_for. rewrite Es. cbn. destruct (ff_skip f), (ff_limit f); reflexivity.
      * unfold fits. rewrite !opt_count_cons. cbn [opt_count filter length]. eqb_lits.
        rewrite Es. cbn. destruct (ff_skip f), (ff_limit f); cbn; repeat split; try lia; auto.
    + apply text_eqb_eq in E4; subst x. destruct a as [v|s| |z]; cbn [as_string]; try discriminate.
      destruct (text_eqb s (lit "asc")) eqn:Ea; [|destruct (text_eqb s (lit "desc")) eqn:Ed; [|discriminate]].
      * intros H. injection H as <-. apply text_eqb_eq in Ea; subst s.
        assert (Hok : for_option_ok (lit "order", AStr (lit "asc"))).
        { right; right; right. split; auto. }
        split; [exact Hok|]. split.
        -- unfold norm_for. cbn. destruct (ff_skip f), (ff_limit f), (ff_sort f); reflexivity.
        -- unfold fits. rewrite !opt_count_cons. cbn [opt_count filter length]. eqb_lits.
           destruct (ff_skip f), (ff_limit f), (ff_sort f); cbn; repeat split; try lia; auto.
      * intros H. injection H as <-. apply text_eqb_eq in Ed; subst s.
        assert (Hok : for_option_ok (lit "order", AStr (lit "desc"))).
        { right; right; right. split; auto. }
        split; [exact Hok|]. split.
        -- unfold norm_for. cbn. destruct (ff_skip f), (ff_limit f), (ff_sort f); reflexivity.
        -- unfold fits. rewrite !opt_count_cons. cbn [opt_count filter length]. eqb_lits.
           destruct (ff_skip f), (ff_limit f), (ff_sort f); cbn; repeat split; try lia; auto.
  - intros (Hok & -> & Hf). unfold fits in Hf. destruct Hf as (_ & H1 & H2 & H3).
    rewrite !opt_count_cons in *. cbn [opt_count filter length] in *.
    destruct Hok as [[E (z & Ea & Hz)]|[[E (z & Ea & Hz)]|[[E (v & Ea)]|[E [Ea|Ea]]]]];
      cbn [fst snd] in E, Ea; subst x a; eqb_lits; cbn [as_integer as_variable as_string].
    + destruct (ff_skip f) eqn:Es; [cbn in H1; lia|]. unfold to_usize.
      destruct (z <? 0)%Z eqn:Ez; [lia|]. cbn. unfold norm_for. rewrite Es. cbn.
      destruct (ff_limit f), (ff_sort f); reflexivity.
    + destruct (ff_limit f) eqn:Es; [cbn in H2; lia|]. unfold to_usize.
      destruct (z <? 0)%Z eqn:Ez; [lia|]. cbn. unfold norm_for. rewrite Es. cbn.
      destruct (ff_skip f), (ff_sort f); reflexivity.
    + destruct (ff_sort f) eqn:Es; [cbn in H3; lia|]. unfold norm_for. rewrite Es. cbn.
      destruct (ff_skip f), (ff_limit f); reflexivity.
    + eqb_lits. unfold norm_for. cbn. destruct (ff_skip f), (ff_limit f), (ff_sort f); reflexivity.
    + eqb_lits. unfold norm_for. cbn. destruct (ff_skip f), (ff_limit f), (ff_sort f); reflexivity.
Qed.

Lemma norm_for_cons f x a l :
  for_option_ok (x, a) -> fits f ((x, a) :: l) ->
  norm_for f ((x, a) :: l) = norm_for (norm_for f [(x, a)]) l /\ fits (norm_for f [(x, a)]) l.
Proof.
  intros Hok (HF & H1 & H2 & H3). inversion HF as [|? ? _ HF']; subst.
  rewrite !opt_count_cons in *.
  destruct Hok as [[E (z & Ea & Hz)]|[[E (z & Ea & Hz)]|[[E (v & Ea)]|[E Ea]]]];
      cbn [fst snd] in E, Ea; subst x; unfold fits, norm_for;
      rewrite !opt_value_cons, !opt_last_cons; cbn [opt_value filter opt_last rev app];
      cbn [ff_skip ff_limit ff_sort ff_desc ff_var ff_src ff_type];
      eqb_lits; subst.
  - destruct (ff_skip f); [cbn in H1; lia|]. cbn [taken int_opt] in *.
    split; [|repeat split; auto; destruct (ff_limit f), (ff_sort f); cbn [taken var_opt int_opt] in *; lia].
    f_equal; [destruct (ff_limit f)|destruct (ff_sort f)|]; auto;
      change (opt_last (lit "order") []) with (@None rawarg); destruct (opt_last (lit "order") l); reflexivity.
  - destruct (ff_limit f); [cbn in H2; lia|]. cbn [taken int_opt] in *.
    split; [|repeat split; auto; destruct (ff_skip f), (ff_sort f); cbn [taken var_opt int_opt] in *; lia].
    f_equal; [destruct (ff_skip f)|destruct (ff_sort f)|]; auto;
      change (opt_last (lit "order") []) with (@None rawarg); destruct (opt_last (lit "order") l); reflexivity.
  - destruct (ff_sort f); [cbn in H3; lia|]. cbn [taken var_opt] in *.
    split; [|repeat split; auto; destruct (ff_skip f), (ff_limit f); cbn [taken var_opt int_opt] in *; lia].
    f_equal; [destruct (ff_skip f)|destruct (ff_limit f)|]; auto;
      change (opt_last (lit "order") []) with (@None rawarg); destruct (opt_last (lit "order") l); reflexivity.
  - split; [|repeat split; auto; destruct (ff_skip f), (ff_limit f), (ff_sort f); cbn [taken var_opt int_opt] in *; lia].
    f_equal; [destruct (ff_skip f)|destruct (ff_limit f)|destruct (ff_sort f)|]; auto;
      change (opt_last (lit "order") []) with (@None rawarg); destruct (opt_last (lit "order") l); reflexivity.
Qed.

Lemma for_named_all_ok nl : forall f f',
  for_named_all f nl = Ok f' <-> f' = norm_for f nl /\ fits f nl.
Proof.
  induction nl as [|[x a] nl IH]; intros f f'; cbn [for_named_all].
  - unfold norm_for, fits. cbn. split.
    + intros H. injection H as <-. split.
      * destruct f as [? ? ? [] [] [] ?]; reflexivity.
      * destruct f as [? ? ? [] [] [] ?]; cbn; repeat split; auto.
    + intros [-> _]. destruct f as [? ? ? [] [] [] ?]; reflexivity.
  - destruct (for_named f (x, a)) as [f1|e|p|] eqn:E; cbn [bind].
    + apply for_named_ok in E as (Hok & -> & Hfit). rewrite IH. split.
      * intros [-> Hf].
        assert (Hfits : fits f ((x, a) :: nl)).
        { destruct Hf as (HF & H1 & H2 & H3), Hfit as (_ & G1 & G2 & G3).
          split; [constructor; auto|]. rewrite !opt_count_cons in *.
          unfold norm_for in H1, H2, H3. cbn [ff_skip ff_limit ff_sort] in *.
          rewrite !opt_value_cons in *. cbn [opt_value opt_count filter length] in *.
          destruct Hok as [[Ex (z & Ea & Hz)]|[[Ex (z & Ea & Hz)]|[[Ex (v & Ea)]|[Ex Ea]]]];
            cbn [fst snd] in Ex, Ea; subst x; eqb_lits; subst;
            destruct (ff_skip f), (ff_limit f), (ff_sort f); cbn [taken int_opt var_opt] in *; repeat split; lia. }
        split; auto. symmetry. now apply norm_for_cons.
      * intros [-> Hf]. now apply norm_for_cons.
    + split; [discriminate|]. intros [-> Hf]. exfalso.
      assert (H : for_named f (x, a) = Ok (norm_for f [(x, a)])); [|congruence].
      destruct Hf as (HF & H1 & H2 & H3). inversion HF as [|? ? Hok HF']; subst. apply for_named_ok.
      split; auto. split; auto. split; [auto|]. rewrite !opt_count_cons in *.
      cbn [opt_count filter length]. repeat split; lia.
    + split; [discriminate|]. intros [-> Hf]. exfalso.
      assert (H : for_named f (x, a) = Ok (norm_for f [(x, a)])); [|congruence].
      destruct Hf as (HF & H1 & H2 & H3). inversion HF as [|? ? Hok HF']; subst. apply for_named_ok.
      split; auto. split; auto. split; [auto|]. rewrite !opt_count_cons in *.
      cbn [opt_count filter length]. repeat split; lia.
    + split; [discriminate|]. intros [-> Hf]. exfalso.
      assert (H : for_named f (x, a) = Ok (norm_for f [(x, a)])); [|congruence].
      destruct Hf as (HF & H1 & H2 & H3). inversion HF as [|? ? Hok HF']; subst. apply for_named_ok.
      split; auto. split; auto. split; [auto|]. rewrite !opt_count_cons in *.
      cbn [opt_count filter length]. repeat split; lia.
Qed.

Lemma ends_with_json_slash r : ends_with (lit ".json") (r ++ lit "/") = false.
Proof.
  destruct (ends_with (lit ".json") (r ++ lit "/")) eqn:E; auto.
  apply ends_with_spec in E as [q E].
  change (lit ".json") with (lit ".jso" ++ lit "n") in E. rewrite app_assoc in E.
  apply app_inj_tail in E as [_ E]. discriminate.
Qed.

Lemma parse_for_ok name pos named f :
  parse_for (RawFn name pos named) = Ok f <->
  exists v b s ty, pos = [AVar v; b] /\ for_src b s ty /\
    fits (ForFn v s ty None None None false) named /\
    f = FFor (norm_for (ForFn v s ty None None None false) named).
Proof.
  unfold parse_for. cbn [rf_pos rf_named]. split.
  - destruct pos as [|a [|b [|? ?]]]; try discriminate.
    destruct a as [v| | |]; cbn [as_variable ok_or bind]; try discriminate.
    destruct b as [v'|s'|i|z]; cbn [bind]; try discriminate.
    + destruct (for_named_all _ named) eqn:E; cbn [bind fst snd] in *; try discriminate.
      intros H. injection H as <-. apply for_named_all_ok in E as [-> E].
      exists v, (AVar v'), v', SrcVar. (split; [auto|]; split; [constructor|]; split; auto).
    + destruct (ends_with (lit ".json") s') eqn:Ej; [|destruct (ends_with [c_slash] s') eqn:Es; [|discriminate]];
        cbn [bind fst snd];
        destruct (for_named_all _ named) eqn:E; cbn [bind fst snd] in *; try discriminate;
        intros H; injection H as <-; apply for_named_all_ok in E as [-> E].
      * apply ends_with_spec in Ej as [r ->].
        exists v, (AStr (r ++ lit ".json")), (r ++ lit ".json"), SrcJson. (split; [auto|]; split; [constructor|]; split; auto).
      * apply ends_with_spec in Es as [r ->].
        exists v, (AStr (r ++ lit "/")), (r ++ lit "/"), SrcDir. (split; [auto|]; split; [constructor|]; split; auto).
  - intros (v & b & s & ty & -> & Hs & Hf & ->).
    assert (E : for_named_all (ForFn v s ty None None None false) named =
                Ok (norm_for (ForFn v s ty None None None false) named))
      by (apply for_named_all_ok; auto).
    cbn [as_variable ok_or bind]. destruct Hs as [r|r|v'].
    + assert (H : ends_with (lit ".json") (r ++ lit ".json") = true) by (apply ends_with_spec; eauto).
      rewrite H. cbn [bind fst snd]. rewrite E. reflexivity.
    + rewrite ends_with_json_slash.
      assert (H : ends_with [c_slash] (r ++ lit "/") = true) by (apply ends_with_spec; exists r; reflexivity).
      rewrite H. cbn [bind fst snd]. rewrite E. reflexivity.
    + cbn [bind fst snd]. rewrite E. reflexivity.
Qed.

Lemma norm_for_init v s ty named :
  norm_for (ForFn v s ty None None None false) named =
  ForFn v s ty (int_opt (opt_value (lit "skip") named)) (int_opt (opt_value (lit "limit") named))
    (var_opt (opt_value (lit "sortby") named)) (is_desc (opt_last (lit "order") named)).
Proof. unfold norm_for. cbn. destruct (opt_last (lit "order") named); reflexivity. Qed.

(** Every built-in accepts exactly its documented calls. *)
Ltac shapes pos named :=
  destruct pos as [|[?|?|?|?] [|[?|?|?|?] [|? ?]]]; destruct named as [|? ?];
  cbn in *; try discriminate.
Lemma builtin_parse_sound b pos named f :
  builtin_parse b (RawFn (builtin_name b) pos named) = Ok f ->
  builtin_call (builtin_name b) pos named f.
Proof.
  destruct b; try (intros H; unfold builtin_parse, parse_label, parse_var_str, parse_else,
    parse_excerpt, parse_var, parse_insert, to_usize in H;
    shapes pos named; injection H as <-; constructor; fail).
  - (* excerpt *)
    intros H. unfold builtin_parse, parse_excerpt, to_usize in H. shapes pos named.
    destruct (z <? 0)%Z eqn:E; cbn in H; [discriminate|]. injection H as <-. constructor. lia.
  - (* for *)
    intros H. apply parse_for_ok in H as (v & b & s & ty & -> & Hs & Hf & ->).
    rewrite norm_for_init. destruct Hf as (HF & H1 & H2 & H3). cbn [taken] in *.
    constructor; auto.
  - intros H. unfold builtin_parse, parse_if in H. shapes pos named;
      injection H as <-; destruct c; repeat constructor.
Qed.
Lemma builtin_call_complete name pos named f : builtin_call name pos named f ->
  exists b, In b function_parsers /\ name = builtin_name b /\
    builtin_parse b (RawFn name pos named) = Ok f.
Proof.
  intros H. destruct H.
  - exists Bbegin; cbn; auto.
  - exists Bbegin; cbn; auto.
  - exists Bend; cbn; auto 10.
  - exists Bend; cbn; auto 10.
  - exists Bdateformat; cbn; auto 10.
  - exists Belse; cbn; auto 10.
  - exists Bexcerpt. split; [cbn; auto 10|]. split; [reflexivity|]. cbn. unfold to_usize.
    destruct (z <? 0)%Z eqn:E; [lia|]. reflexivity.
  - exists Bifdefined; cbn; auto 10.
  - exists Bimport; cbn; auto 15.
  - exists Binsert; cbn; auto 15.
  - exists Btimetoread; cbn; auto 15.
  - exists (Bif CEq); split; [cbn; auto 20|]; split; [reflexivity|]; destruct H, H0; reflexivity.
  - exists (Bif CNe); split; [cbn; auto 20|]; split; [reflexivity|]; destruct H, H0; reflexivity.
  - exists (Bif CGt); split; [cbn; auto 20|]; split; [reflexivity|]; destruct H, H0; reflexivity.
  - exists (Bif CGe); split; [cbn; auto 20|]; split; [reflexivity|]; destruct H, H0; reflexivity.
  - exists (Bif CLt); split; [cbn; auto 20|]; split; [reflexivity|]; destruct H, H0; reflexivity.
  - exists (Bif CLe); split; [cbn; auto 20|]; split; [reflexivity|]; destruct H, H0; reflexivity.
  - exists Bfor. split; [cbn; auto 20|]. split; [reflexivity|]. cbn [builtin_parse].
    apply parse_for_ok. exists v, b, s, ty. split; auto. split; auto. split.
    + split; auto.
    + now rewrite norm_for_init.
Qed.
(** No built-in parser panics. *)
Lemma builtin_parse_total b r : (exists f, builtin_parse b r = Ok f) \/ exists e, builtin_parse b r = Err e.
Proof.
  destruct r as [name pos named].
  assert (Hfor : forall nl f, (exists f', for_named_all f nl = Ok f') \/ exists e, for_named_all f nl = Err e).
  { induction nl as [|[x a] nl IH]; intros f; cbn [for_named_all]; eauto.
    assert (H : (exists f', for_named f (x, a) = Ok f') \/ exists e, for_named f (x, a) = Err e).
    { unfold for_named, to_usize.
      destruct (text_eqb x (lit "skip")); [|destruct (text_eqb x (lit "limit"));
        [|destruct (text_eqb x (lit "sortby")); [|destruct (text_eqb x (lit "order")); eauto]]].
      - destruct (as_integer a) as [z|]; eauto. destruct (ff_skip f); eauto.
        destruct (z <? 0)%Z; cbn; eauto.
      - destruct (as_integer a) as [z|]; eauto. destruct (ff_limit f); eauto.
        destruct (z <? 0)%Z; cbn; eauto.
      - destruct (as_variable a); eauto. destruct (ff_sort f); eauto.
      - destruct (as_string a) as [s|]; eauto.
        destruct (text_eqb s (lit "asc")), (text_eqb s (lit "desc")); eauto. }
    destruct H as [[f' ->]|[e ->]]; cbn; eauto. }
  destruct b; cbn [builtin_parse];
    unfold parse_label, parse_var_str, parse_else, parse_excerpt, parse_var, parse_insert, parse_if;
    try (cbn [rf_pos rf_named];
      destruct pos as [|[?|?|?|?] [|[?|?|?|?] [|? ?]]]; cbn; eauto;
      destruct named; cbn; eauto; unfold to_usize; try (destruct (z <? 0)%Z; cbn; eauto); fail).
  unfold parse_for. cbn [rf_pos rf_named].
  destruct pos as [|a [|b [|? ?]]]; eauto.
  destruct a as [v| | |]; cbn [as_variable ok_or bind]; eauto.
  destruct b as [v'|s'|i|z]; cbn [bind]; eauto.
  - cbn [fst snd]. destruct (Hfor named (ForFn v v' SrcVar None None None false)) as [[f' ->]|[e ->]]; cbn; eauto.
  - destruct (ends_with (lit ".json") s'); [|destruct (ends_with [c_slash] s')]; cbn [bind fst snd]; eauto.
    + destruct (Hfor named (ForFn v s' SrcJson None None None false)) as [[f' ->]|[e ->]]; cbn; eauto.
    + destruct (Hfor named (ForFn v s' SrcDir None None None false)) as [[f' ->]|[e ->]]; cbn; eauto.
Qed.

(** Plugin functions. *)
Lemma answers_dec name p f : text_eqb name (pp_name f) || text_eqb name (qualified p (pp_name f)) = true <->
  answers name p f.
Proof.
  unfold answers, qualified. rewrite orb_true_iff, !text_eqb_eq. reflexivity.
Qed.
Lemma find_in_plugin_spec name p fs :
  match find_in_plugin name p fs with
  | Some f => exists l1 l2, fs = l1 ++ f :: l2 /\ answers name p f /\ Forall (fun g => ~ answers name p g) l1
  | None => Forall (fun g => ~ answers name p g) fs
  end.
Proof.
  induction fs as [|f fs IH]; cbn [find_in_plugin]; [constructor|].
  destruct (text_eqb name (pp_name f) || text_eqb name (qualified p (pp_name f))) eqn:E.
  - exists [], fs. rewrite <- answers_dec. auto.
  - assert (Hn : ~ answers name p f) by (rewrite <- answers_dec, E; discriminate).
    destruct (find_in_plugin name p fs) as [g|].
    + destruct IH as (l1 & l2 & -> & Ha & HF). exists (f :: l1), l2. repeat split; auto.
    + constructor; auto.
Qed.
Lemma find_plugin_spec name t :
  match find_plugin name t with
  | Some f => first_plugin t name f
  | None => Forall (fun pf => ~ answers name (fst pf) (snd pf)) (flat_table t)
  end.
Proof.
  induction t as [|[p fs] t IH]; cbn [find_plugin]; [constructor|].
  unfold first_plugin, flat_table in *. cbn [flat_map fst snd].
  pose proof (find_in_plugin_spec name p fs) as H.
  destruct (find_in_plugin name p fs) as [f|].
  - destruct H as (l1 & l2 & -> & Ha & HF).
    exists (map (fun f => (p, f)) l1), p, (map (fun f => (p, f)) l2 ++ flat_map (fun p => map (fun f => (fst p, f)) (snd p)) t).
    rewrite map_app, <- app_assoc. cbn [map app]. split; auto. split; auto.
    rewrite Forall_map. exact HF.
  - assert (HF : Forall (fun pf => ~ answers name (fst pf) (snd pf)) (map (fun f => (p, f)) fs))
      by (rewrite Forall_map; exact H).
    destruct (find_plugin name t) as [f|].
    + destruct IH as (l1 & q & l2 & E & Ha & HF1). rewrite E.
      exists (map (fun f => (p, f)) fs ++ l1), q, l2. rewrite <- app_assoc. split; auto. split; auto.
      apply Forall_app; auto.
    + apply Forall_app; auto.
Qed.
Lemma first_plugin_unique t name f g : first_plugin t name f -> first_plugin t name g -> f = g.
Proof.
  intros (l1 & p & l2 & E & Ha & HF) (k1 & q & k2 & E' & Ha' & HF').
  rewrite E in E'. clear E t. revert k1 E' HF'.
  induction l1 as [|x l1 IH]; intros [|y k1] E' HF'; cbn in E'.
  - congruence.
  - injection E' as <- E'. inversion HF'; subst. cbn in *. tauto.
  - injection E' as -> E'. inversion HF; subst. cbn in *. tauto.
  - injection E' as <- E'. inversion HF; inversion HF'; subst. eauto.
Qed.

Lemma resolve_denotes t name pos named k :
  denotes t (GCall name pos named) k <->
  exists f, k = TFun f /\ resolve t (RawFn name pos named) = Ok f.
Proof.
  unfold resolve. cbn [rf_name]. split.
  - intros H. inversion H as [|? ? ? f Hb|? ? ? p g Hn Hp Hg]; subst.
    + exists f. split; auto. apply builtin_call_complete in Hb as (b & Hb & -> & E).
      rewrite find_builtin_name by auto. now rewrite E.
    + exists (FPlugin g). split; auto.
      rewrite builtin_names_eq in Hn. apply find_builtin_none in Hn. rewrite Hn.
      pose proof (find_plugin_spec name t) as H1. destruct (find_plugin name t) as [p'|].
      * rewrite (first_plugin_unique _ _ _ _ H1 Hp), Hg. reflexivity.
      * exfalso. destruct Hp as (l1 & q & l2 & E & Ha & _). rewrite E in H1.
        rewrite Forall_forall in H1. apply (H1 (q, p)); auto. apply in_elt.
  - intros (f & -> & E). destruct (find_builtin name function_parsers) as [b|] eqn:Eb.
    + apply find_builtin_some in Eb as [-> Hin].
      destruct (builtin_parse b _) eqn:Ep; cbn in E; try discriminate. injection E as ->.
      apply de_builtin. now apply builtin_parse_sound.
    + apply find_builtin_none in Eb. rewrite <- builtin_names_eq in Eb.
      pose proof (find_plugin_spec name t) as H1. destruct (find_plugin name t) as [p'|]; [|discriminate].
      destruct (pp_parse p' _) eqn:Ep; [discriminate|]. injection E as <-.
      eapply de_plugin; eauto.
Qed.
Lemma resolve_total t r : (exists f, resolve t r = Ok f) \/ exists e, resolve t r = Err e.
Proof.
  unfold resolve. destruct (find_builtin (rf_name r) function_parsers) as [b|].
  - destruct (builtin_parse_total b r) as [[f ->]|[e ->]]; cbn; eauto.
  - destruct (find_plugin (rf_name r) t) as [p|]; eauto. destruct (pp_parse p r); eauto.
Qed.
