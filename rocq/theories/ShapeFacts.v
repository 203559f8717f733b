(** ShapeFacts.v -- a text is made of raw texts and tags in one way only (C74, C103). *)

From Coq Require Import String List NArith ZArith Bool Lia Arith.
From Coq Require Import ZifyBool ZifyNat ZifyN.
From Verif Require Import Text TextFacts CharFacts Base Lexer LexerFacts Syntax Parse SpecTemplate SpecGrammar
  EscapeFacts CallFacts ParseFacts ParseInv ParseErr GrammarFacts.
Import ListNotations.
Local Open Scope N_scope.

Definition closes (g : tag) (p : parser) : option (tag * text) :=
  match p_expect [] close_tag (ignore_while is_whitespace p) with Ok p3 => Some (g, p_chars p3) | _ => None end.
(** The tag a text starts with, and the text behind it. *)
Definition reads (ext : char -> bool) (cs : text) : option (tag * text) :=
  let p1 := ignore_while is_whitespace (state_at [] cs) in
  match p_peek p1 with
  | None => None
  | Some c =>
      if c =? c_dollar then match parse_variable ext [] p1 with Ok (TVar v, p2) => closes (GVar v) p2 | _ => None end
      else
        let (name, p2) := extract_while (fun_char ext) p1 in
        if match name with [] => true | _ => false end then None else
        match p_expect [] [c_lparen] (ignore_while is_whitespace p2) with
        | Ok p3 => match parse_args (S (length (p_chars p3))) ext [] p3 [] [] with
                   | Ok (pos, named, p4) => closes (GCall name pos named) p4
                   | _ => None
                   end
        | _ => None
        end
  end.
Lemma closes_at g pre w rest : blank w -> closes g (state_at pre (w ++ close_tag ++ rest)) = Some (g, rest).
Proof. intros H. unfold closes. rewrite ignore_while_app; [|auto|reflexivity]. now rewrite p_expect_state. Qed.
Lemma tag_reads ext w1 g b w2 rest : blank w1 -> blank w2 -> loose_tag ext g b -> reads ext (w1 ++ b ++ w2 ++ close_tag ++ rest) = Some (g, rest).
Proof.
  intros H1 H2 Hb. unfold reads. destruct Hb as [v Hv Hf|name w pos named t Hn Hf Hw Hok Ht].
  - rewrite ignore_while_app by (auto; reflexivity). cbn [app]. unfold p_peek. rewrite state_at_chars. rewrite N.eqb_refl. unfold parse_variable.
    change (c_dollar :: v ++ w2 ++ close_tag ++ rest) with ([c_dollar] ++ v ++ w2 ++ close_tag ++ rest).
    rewrite p_expect_state. cbn [bind].
    rewrite var_name in Hf. rewrite extract_while_app; [|auto|].
    2:{ apply stops_blank_then; [intros; now apply white_not_var|assumption|reflexivity]. }
    destruct v as [|c v]; [congruence|]. now apply closes_at.
  - rewrite fun_name in Hf.
    assert (Hst : stops is_whitespace ((name ++ w ++ [c_lparen] ++ t ++ [c_rparen]) ++ w2 ++ close_tag ++ rest)).
    { destruct name as [|c name]; [congruence|]. cbn in *.
      apply andb_true_iff in Hf as [Hf _]. now apply fun_char_white in Hf. }
    rewrite ignore_while_app by auto.
    destruct name as [|c0 name0]; [congruence|]. set (name := c0 :: name0) in *.
    assert (Hc : (c0 =? c_dollar) = false).
    { cbn in Hf. apply andb_true_iff in Hf as [Hf _].
      unfold fun_char, is_alnum, c_under, c_colon, is_digit, is_ascii_alpha in Hf.
      unfold c_dollar. destruct (c0 <? 128) eqn:E; lia. }
    replace ((name ++ w ++ [c_lparen] ++ t ++ [c_rparen]) ++ w2 ++ close_tag ++ rest)
      with (name ++ w ++ [c_lparen] ++ t ++ [c_rparen] ++ w2 ++ close_tag ++ rest)
      by (now rewrite <- !app_assoc).
    assert (Hp : forall x, p_peek (state_at ([] ++ w1) (name ++ x)) = Some c0) by reflexivity.
    rewrite Hp, Hc.
    rewrite extract_while_app; [|auto|].
    2:{ apply stops_blank_then; [intros; now apply white_not_fun|assumption|reflexivity]. }
    unfold name at 1. cbv iota.
    rewrite ignore_while_app; [|auto|reflexivity].
    rewrite p_expect_state. cbv iota.
    rewrite (parse_loose_args ext [] _ _ Ht Hok _ _ [] [] pos named (w2 ++ close_tag ++ rest)).
    2:{ rewrite state_at_chars. rewrite !app_length. cbn [length]. lia. }
    2:{ apply collect_pargs. }
    now apply closes_at.
Qed.
(** There is one way of cutting a text into raw texts and tags. *)
Lemma one_shape ext l r t : loose_template ext l r t -> forall l' r', loose_template ext l' r' t -> l' = l /\ r' = r.
Proof.
  intros H. induction H as [t r N|t s g w1 b w2 l r t' F H1 H2 Hb H IH]; intros l' r' K; destruct K as [t r' N'|t s' g' w1' b' w2' l' r' t1 F' H1' H2' Hb' K].
  - destruct (extract_no_tag [] t r N) as (p & E & <-). destruct (extract_no_tag [] t r' N') as (p' & E' & <-). split; auto. congruence.
  - destruct (extract_no_tag [] t r N) as (p & E & _). destruct (extract_first_tag [] _ _ _ F') as (src & _ & _ & E'). rewrite E in E'. discriminate.
  - destruct (extract_no_tag [] t r' N') as (p & E & _). destruct (extract_first_tag [] _ _ _ F) as (src & _ & _ & E'). rewrite E in E'. discriminate.
  - destruct (extract_first_tag [] _ _ _ F) as (src & _ & _ & E). destruct (extract_first_tag [] _ _ _ F') as (src' & _ & _ & E'). rewrite E in E'.
    apply pair_equal_spec in E' as [Es E']. injection Es as <-. pose proof (f_equal p_chars E') as Q. rewrite !state_at_chars in Q.
    assert (R := tag_reads ext w1 g b w2 t' H1 H2 Hb). rewrite Q, (tag_reads ext w1' g' b' w2' t1 H1' H2' Hb') in R. injection R as -> ->.
    destruct (IH _ _ K) as [-> ->]. now split.
Qed.

(** ** Finding it *)
Lemma closes_inv g pre cs g' rest : closes g (state_at pre cs) = Some (g', rest) -> g' = g /\ exists w, blank w /\ cs = w ++ close_tag ++ rest.
Proof.
  unfold closes. rewrite ignore_while_span. destruct (span1_spec is_whitespace cs) as (E & Hw & _).
  match goal with |- context [p_expect [] ?s ?q] => destruct (p_expect_total [] s q) as [[p1 H]|[e H]]; rewrite H; [|discriminate] end.
  apply p_expect_inv in H as (cs' & H & ->). rewrite state_at_chars. intros [= <- <-]. split; auto. exists (fst (span1 is_whitespace cs)). split; [now apply ws_blank|]. rewrite <- H. exact E.
Qed.
Lemma reads_tag ext cs g rest : reads ext cs = Some (g, rest) -> exists w1 b w2, blank w1 /\ blank w2 /\ loose_tag ext g b /\ cs = w1 ++ b ++ w2 ++ close_tag ++ rest.
Proof.
  unfold reads. rewrite ignore_while_span. destruct (span1_spec is_whitespace cs) as (E1 & Hw & _).
  set (w := fst (span1 is_whitespace cs)) in *. set (cs1 := snd (span1 is_whitespace cs)) in *. clearbody w cs1. apply ws_blank in Hw.
  destruct (p_peek _) as [c|]; [|discriminate]. destruct (c =? c_dollar).
  - pose proof (parse_variable_out ext [] ([] ++ w) cs1) as HV. destruct (parse_variable ext [] _) as [[k p2]| | |]; try discriminate.
    destruct HV as (a & b & -> & _ & Hp & v & Hv & -> & Hv1 & Hv2). cbn [fst snd] in *. subst. intros H. apply closes_inv in H as (-> & w2 & B & ->).
    exists w, (c_dollar :: v), w2. repeat split; auto. now constructor.
  - rewrite extract_while_span. destruct (span1_spec (fun_char ext) cs1) as (E2 & Hn & _). set (name := fst (span1 (fun_char ext) cs1)) in *. set (cs2 := snd (span1 (fun_char ext) cs1)) in *.
    clearbody name cs2. destruct name as [|c0 name0]; [discriminate|]. cbv iota. set (name := c0 :: name0) in *. rewrite ignore_while_span. destruct (span1_spec is_whitespace cs2) as (E3 & Hw3 & _).
    set (w3 := fst (span1 is_whitespace cs2)) in *. set (cs3 := snd (span1 is_whitespace cs2)) in *. clearbody w3 cs3.
    match goal with |- context [p_expect [] ?s ?q] => destruct (p_expect_total [] s q) as [[p1 E]|[e E]]; rewrite E; [|discriminate] end.
    apply p_expect_inv in E as (cs4 & -> & ->). rewrite state_at_chars.
    match goal with |- context [parse_args ?f ext [] ?s [] []] => destruct (parse_args f ext [] s [] []) as [[[pos named] p4]| | |] eqn:EA end; try discriminate.
    apply parse_args_inv in EA as (l & t & rest1 & -> & -> & L & F & C). apply collect_some in C as (pos1 & named1 & -> & C & _). apply pair_equal_spec in C as [-> ->].
    intros H. apply closes_inv in H as (-> & w2 & B & ->). cbn [app].
    exists w, (name ++ w3 ++ [c_lparen] ++ t ++ [c_rparen]), w2. split; [auto|]. split; [auto|]. split.
    + constructor; auto; [discriminate|now rewrite fun_name].
    + rewrite E1, E2, E3. rewrite <- !app_assoc. reflexivity.
Qed.
(** The raw texts and tags of a text. *)
Fixpoint shape (fuel : nat) (ext : char -> bool) (t : text) : option (list (text * tag) * text) :=
  match fuel with
  | O => None
  | S k =>
      match extract_until open_tag true (state_at [] t) with
      | (None, p) => Some ([], extract_remaining p)
      | (Some raw, p) =>
          match reads ext (p_chars p) with
          | Some (g, rest) => match shape k ext rest with Some (l, r) => Some ((raw, g) :: l, r) | None => None end
          | None => None
          end
      end
  end.
Lemma shape_sound ext fuel : forall t l r, shape fuel ext t = Some (l, r) -> loose_template ext l r t.
Proof.
  induction fuel as [|k IH]; intros t l r; cbn [shape]; [discriminate|]. destruct (scan_text _ t (le_n _)) as [(raw & rest & F)|(raw & N)].
  - destruct (extract_first_tag [] _ _ _ F) as (src & _ & _ & ->). rewrite state_at_chars. destruct (reads ext rest) as [[g rest']|] eqn:R; [|discriminate].
    apply reads_tag in R as (w1 & b & w2 & H1 & H2 & Hb & ->). destruct (shape k ext rest') as [[l1 r1]|] eqn:Q; [|discriminate]. intros [= <- <-]. econstructor; eauto.
  - destruct (extract_no_tag [] _ _ N) as (p & -> & <-). intros [= <- <-]. now constructor.
Qed.
