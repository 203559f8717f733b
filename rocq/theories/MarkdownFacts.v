(** MarkdownFacts.v -- lines, front matter (parse/markdown.rs). *)

From Coq Require Import String List NArith ZArith Bool Lia Arith.
From Coq Require Import ZifyBool ZifyNat ZifyN.
From Verif Require Import Text TextFacts CharFacts Base Lexer LexerFacts Syntax Parse SpecTemplate SpecLocation SpecMarkdown
  ParseFacts ParseInv.
Import ListNotations.
Local Open Scope N_scope.

(** ** Lines *)
Lemma strip_cr_snoc l : strip_cr (l ++ [c_cr]) = l.
Proof. unfold strip_cr. rewrite rev_app_distr. cbn [rev app]. rewrite N.eqb_refl. apply rev_involutive. Qed.
Lemma strip_cr_id l : ~ ends_cr l -> strip_cr l = l.
Proof.
  intros H. unfold strip_cr. destruct (rev l) as [|c r] eqn:E; auto.
  destruct (N.eqb_spec c c_cr) as [->|]; auto. exfalso. apply H. exists (rev r).
  apply (f_equal (@rev char)) in E. rewrite rev_involutive in E. exact E.
Qed.
Lemma lines_aux_line l : ~ In c_lf l -> forall cur t,
  lines_aux cur (l ++ [c_lf] ++ t) = strip_cr (rev cur ++ l) :: lines_aux [] t.
Proof.
  induction l as [|c l IH]; intros H cur t; cbn [app lines_aux].
  - rewrite N.eqb_refl, app_nil_r. reflexivity.
  - destruct (N.eqb_spec c c_lf) as [->|]; [exfalso; apply H; now left|].
    change (l ++ c_lf :: t) with (l ++ [c_lf] ++ t). rewrite IH.
    + cbn [rev]. rewrite <- app_assoc. reflexivity.
    + intros Hin. apply H. now right.
Qed.
Lemma lines_aux_last l : ~ In c_lf l -> forall cur,
  lines_aux cur l = match rev cur ++ l with [] => [] | x => [x] end.
Proof.
  induction l as [|c l IH]; intros H cur; cbn [lines_aux].
  - rewrite app_nil_r. destruct cur as [|c cur]; auto.
    destruct (rev (c :: cur)) eqn:E; auto. apply (f_equal (@rev char)) in E.
    rewrite rev_involutive in E. discriminate.
  - destruct (N.eqb_spec c c_lf) as [->|]; [exfalso; apply H; now left|].
    rewrite IH by (intros Hin; apply H; now right). cbn [rev]. rewrite <- app_assoc. reflexivity.
Qed.
Lemma not_in_app_cr l : ~ In c_lf l -> ~ In c_lf (l ++ [c_cr]).
Proof. intros H. rewrite in_app_iff. intros [?|[?|[]]]; auto. discriminate. Qed.
Lemma lines_ended ls t : ended_lines ls t -> forall rest, lines (t ++ rest) = ls ++ lines rest.
Proof.
  unfold lines. induction 1 as [|l ls t Hl Hc He IH|l ls t Hl He IH]; intros rest; auto.
  - rewrite <- !app_assoc. rewrite lines_aux_line by auto. cbn [rev app]. rewrite strip_cr_id by auto.
    now rewrite IH.
  - rewrite <- app_assoc. change ([c_cr; c_lf] ++ t) with ([c_cr] ++ [c_lf] ++ t).
    rewrite <- !app_assoc. rewrite (app_assoc l [c_cr]).
    rewrite lines_aux_line by (now apply not_in_app_cr). cbn [rev app]. rewrite strip_cr_snoc.
    now rewrite IH.
Qed.
Lemma lines_text ls t : text_lines ls t -> lines t = ls.
Proof.
  intros [ls' t' H|ls' t' l H Hl Hn].
  - rewrite <- (app_nil_r t'). rewrite (lines_ended _ _ H). apply app_nil_r.
  - rewrite (lines_ended _ _ H). unfold lines. rewrite lines_aux_last by auto.
    cbn [rev app]. destruct l; [congruence|reflexivity].
Qed.
Lemma ended_snoc ls t : ended_lines ls t -> forall l s, ended_lines [l] s -> ended_lines (ls ++ [l]) (t ++ s).
Proof.
  induction 1; intros; cbn [app]; auto.
  - rewrite <- !app_assoc. apply el_lf; auto.
  - rewrite <- !app_assoc. apply el_crlf; auto.
Qed.
Lemma ends_cr_dec l : ends_cr l \/ ~ ends_cr l.
Proof.
  destruct l as [|c l _] using rev_ind.
  - right. intros [l' E]. destruct l'; discriminate.
  - destruct (N.eq_dec c c_cr) as [->|H]; [left; exists l; auto|right].
    intros [l' E]. apply app_inj_tail in E as [_ E]. congruence.
Qed.
Lemma text_lines_exists t : exists ls, text_lines ls t.
Proof.
  assert (H : exists ls a l, t = a ++ l /\ ended_lines ls a /\ ~ In c_lf l).
  { induction t as [|c t IH] using rev_ind.
    - exists [], [], []. repeat split; auto. constructor.
    - destruct IH as (ls & a & l & -> & Ha & Hl). destruct (N.eq_dec c c_lf) as [->|Hc].
      + destruct (ends_cr_dec l) as [[l' ->]|Hcr].
        * exists (ls ++ [l']), (a ++ l' ++ [c_cr; c_lf]), []. rewrite <- !app_assoc. split; [reflexivity|].
          split; [|auto]. apply ended_snoc; auto. apply (el_crlf l' [] []); [|constructor].
          intros Hin. apply Hl, in_app_iff. now left.
        * exists (ls ++ [l]), (a ++ l ++ [c_lf]), []. rewrite <- !app_assoc. split; [reflexivity|].
          split; [|auto]. apply ended_snoc; auto. apply (el_lf l [] []); auto. constructor.
      + exists ls, a, (l ++ [c]). rewrite <- app_assoc. split; auto. split; auto.
        rewrite in_app_iff. intros [?|[?|[]]]; auto. }
  destruct H as (ls & a & l & -> & Ha & Hl). destruct l as [|c l].
  - exists ls. rewrite app_nil_r. now constructor.
  - exists (ls ++ [c :: l]). apply tl_more; auto. discriminate.
Qed.
Lemma lines_spec t : text_lines (lines t) t.
Proof. destruct (text_lines_exists t) as [ls H]. rewrite (lines_text _ _ H). exact H. Qed.
Lemma with_lf_join ls : join_lf ls = with_lf ls.
Proof. reflexivity. Qed.

Lemma ended_no_lf ls t : ended_lines ls t -> forall l, In l ls -> ~ In c_lf l.
Proof. induction 1; intros x; [intros []|intros [<-|Hx]; auto|intros [<-|Hx]; auto]. Qed.
Lemma text_no_lf ls t : text_lines ls t -> forall l, In l ls -> ~ In c_lf l.
Proof.
  intros [ls' t' H|ls' t' m H Hm Hn] l Hin.
  - eapply ended_no_lf; eauto.
  - apply in_app_iff in Hin as [Hin|[<-|[]]]; auto. eapply ended_no_lf; eauto.
Qed.

(** A body that uses LF only and does not end with one is kept as it is. *)
Lemma ended_with_lf ls t : ended_lines ls t -> ~ In c_cr t -> ls <> [] -> t = with_lf ls ++ [c_lf].
Proof.
  induction 1 as [|l ls t Hl Hc He IH|l ls t Hl He IH]; intros Hcr Hne; [congruence| |].
  - destruct ls as [|m ls].
    + inversion He; subst. reflexivity.
    + change (with_lf (l :: m :: ls)) with (l ++ [c_lf] ++ with_lf (m :: ls)).
      rewrite IH; [now rewrite <- !app_assoc| |discriminate].
      intros Hin. apply Hcr, in_app_iff. right. now right.
  - exfalso. apply Hcr, in_app_iff. right. now left.
Qed.
Lemma with_lf_snoc ls l : ls <> [] -> with_lf (ls ++ [l]) = with_lf ls ++ [c_lf] ++ l.
Proof.
  induction ls as [|m [|n ls] IH]; intros H; [congruence|reflexivity|].
  change (with_lf ((m :: n :: ls) ++ [l])) with (m ++ [c_lf] ++ with_lf ((n :: ls) ++ [l])).
  rewrite IH by discriminate.
  change (with_lf (m :: n :: ls)) with (m ++ [c_lf] ++ with_lf (n :: ls)).
  now rewrite <- !app_assoc.
Qed.
Lemma body_kept t : ~ In c_cr t -> (forall t', t <> t' ++ [c_lf]) -> with_lf (lines t) = t.
Proof.
  intros Hcr Hlf. pose proof (lines_spec t) as H. destruct H as [ls t H|ls t l H Hl Hn].
  - destruct ls as [|l ls]; [inversion H; reflexivity|]. exfalso.
    apply (Hlf (with_lf (l :: ls))). apply ended_with_lf; auto. discriminate.
  - destruct ls as [|m ls]; [inversion H; reflexivity|].
    rewrite with_lf_snoc by discriminate. rewrite (ended_with_lf _ _ H); [now rewrite <- app_assoc| |discriminate].
    intros Hin. apply Hcr, in_app_iff. now left.
Qed.

(** ** Front matter lines *)
Lemma tight_trimmed t : tight t <-> trimmed t.
Proof.
  unfold tight, trimmed. split; intros [H1 H2]; split.
  - destruct t; auto. rewrite <- white_ws. eauto.
  - destruct (rev t) as [|c r] eqn:Er; auto. rewrite <- white_ws.
    apply (H2 c (rev r)). apply (f_equal (@rev char)) in Er. rewrite rev_involutive in Er. exact Er.
  - intros c r ->. rewrite white_ws. exact H1.
  - intros c r ->. rewrite white_ws. rewrite rev_app_distr in H2. exact H2.
Qed.
Lemma blank_not_in c w : is_whitespace c = false -> blank w -> ~ In c w.
Proof. intros H Hw Hin. apply blank_ws in Hw. rewrite forallb_forall in Hw. apply Hw in Hin. congruence. Qed.
Lemma front_line_iff l kv : front_line l = Some kv <-> pair_line kv l.
Proof.
  destruct kv as [k v]. unfold front_line, pair_line. cbn [fst snd]. split.
  - pose proof (splitn2_spec c_colon l) as Hs. destruct (splitn2 c_colon l) as [k0 [r|]]; [|discriminate].
    destruct Hs as [-> Hk]. destruct (strip_prefix [c_quote] (trim r)) as [v1|] eqn:E1; [|discriminate].
    destruct (strip_suffix [c_quote] v1) as [v2|] eqn:E2; [|discriminate].
    intros H. injection H as <- <-. apply strip_prefix_spec in E1. apply strip_suffix_spec in E2. subst v1.
    destruct (trim_spec k0) as (w1 & w2 & Ek & H1 & H2 & H3).
    destruct (trim_spec r) as (w3 & w4 & Er & H4 & H5 & H6).
    exists w1, w2, w3, w4. do 4 (split; [auto|]). split; [now apply tight_trimmed|]. split.
    + intros Hin. apply Hk. rewrite Ek. apply in_app_iff. right. apply in_app_iff. now left.
    + rewrite Ek at 1. rewrite Er at 1. rewrite E1. rewrite <- !app_assoc. reflexivity.
  - intros (w1 & w2 & w3 & w4 & H1 & H2 & H3 & H4 & H5 & H6 & ->).
    replace (w1 ++ k ++ w2 ++ [c_colon] ++ w3 ++ [c_quote] ++ v ++ [c_quote] ++ w4)
      with ((w1 ++ k ++ w2) ++ c_colon :: (w3 ++ ([c_quote] ++ v ++ [c_quote]) ++ w4))
      by (now rewrite <- !app_assoc).
    rewrite splitn2_app.
    2:{ rewrite !in_app_iff. intros [H|[H|H]]; auto; revert H; apply blank_not_in; auto. }
    rewrite (trim_pad w3); auto.
    2:{ split; [reflexivity|]. cbn [app]. rewrite app_comm_cons, rev_app_distr. reflexivity. }
    rewrite (trim_pad w1); auto; [|now apply tight_trimmed].
    assert (E1 : strip_prefix [c_quote] ([c_quote] ++ v ++ [c_quote]) = Some (v ++ [c_quote]))
      by (now apply strip_prefix_spec).
    rewrite E1.
    assert (E2 : strip_suffix [c_quote] (v ++ [c_quote]) = Some v) by (now apply strip_suffix_spec).
    rewrite E2. reflexivity.
Qed.
Lemma dashes_iff l : starts_with (lit "---") l = true <-> dashes l.
Proof. rewrite starts_with_spec. reflexivity. Qed.
Lemma dashes_false l : ~ dashes l -> starts_with (lit "---") l = false.
Proof. intros H. destruct (starts_with (lit "---") l) eqn:E; auto. now apply dashes_iff in E. Qed.

Lemma front_loop_pairs fs kvs : Forall2 pair_line kvs fs -> Forall (fun l => ~ dashes l) fs ->
  forall i acc rest, front_loop i true acc (fs ++ rest) = front_loop (i + length fs) true (acc ++ kvs) rest.
Proof.
  induction 1 as [|kv l kvs fs Hl H IH]; intros HF i acc rest.
  - cbn [length app]. now rewrite Nat.add_0_r, app_nil_r.
  - inversion HF as [|? ? Hd HF']; subst. cbn [app front_loop]. rewrite (dashes_false _ Hd).
    apply front_line_iff in Hl. rewrite Hl. rewrite IH by auto. cbn [length].
    rewrite <- app_assoc. now rewrite Nat.add_succ_r.
Qed.

Definition md_result (ext : char -> bool) (plugins : fn_table) (file : path) (fm : list (text * text)) (body : text)
  : res (traceback parse_error) markdown :=
  match parse_html ext plugins file body with
  | Ok toks => Ok (Markdown fm toks body None)
  | Err e => Err e
  | Panic p => Panic p
  | OutOfFuel => OutOfFuel
  end.
Lemma md_result_bind ext plugins file fm body :
  bind (parse_html ext plugins file body) (fun toks => Ok (Markdown fm toks body None)) =
  md_result ext plugins file fm body.
Proof. unfold md_result. destruct (parse_html ext plugins file body); reflexivity. Qed.

Lemma opens_iff t : starts_with (lit "---" ++ [c_lf]) t || starts_with (lit "---" ++ [c_cr; c_lf]) t = true <-> opens_front t.
Proof.
  rewrite orb_true_iff, !starts_with_spec. unfold opens_front. split.
  - intros [[r ->]|[r ->]]; exists r; rewrite <- app_assoc; auto.
  - intros [r [-> | ->]]; [left|right]; exists r; now rewrite <- app_assoc.
Qed.
Lemma opens_lines t : opens_front t -> exists ls, lines t = lit "---" :: ls.
Proof.
  intros [r [-> | ->]].
  - exists (lines r). rewrite (app_assoc (lit "---")).
    rewrite (lines_ended [lit "---"] (lit "---" ++ [c_lf])); [reflexivity|].
    apply (el_lf (lit "---") [] []); [cbv; intuition discriminate| |constructor].
    intros [l E]. change (lit "---") with (lit "--" ++ [c_minus]) in E. apply app_inj_tail in E as [_ E]. discriminate.
  - exists (lines r). rewrite (app_assoc (lit "---")).
    rewrite (lines_ended [lit "---"] (lit "---" ++ [c_cr; c_lf])); [reflexivity|].
    apply (el_crlf (lit "---") [] []); [cbv; intuition discriminate|constructor].
Qed.

Theorem markdown_front ext plugins file input ls fs kvs d body :
  opens_front input -> text_lines ls input -> ls = lit "---" :: fs ++ d :: body ->
  Forall2 pair_line kvs fs -> Forall (fun l => ~ dashes l) fs -> dashes d ->
  parse_markdown ext plugins file input = md_result ext plugins file kvs (with_lf body).
Proof.
  intros Ho Hl E Hp Hf Hd. unfold parse_markdown. apply opens_iff in Ho. rewrite Ho.
  rewrite (lines_text _ _ Hl), E.
  assert (Hfl : front_loop 0 false [] (lit "---" :: fs ++ d :: body) = FrOk (S (S (length fs))) kvs).
  { cbn [front_loop]. replace (starts_with (lit "---") (lit "---")) with true by reflexivity.
    rewrite (front_loop_pairs fs kvs) by auto. cbn [app front_loop].
    apply dashes_iff in Hd. rewrite Hd. reflexivity. }
  rewrite Hfl. cbn [bind].
  assert (Hs : skipn (S (S (length fs))) (lit "---" :: fs ++ d :: body) = body).
  { change (skipn (S (length fs)) (fs ++ d :: body) = body). clear. induction fs; [reflexivity|exact IHfs]. }
  rewrite Hs, with_lf_join. apply md_result_bind.
Qed.
Theorem markdown_bad_line ext plugins file input ls fs kvs bad rest :
  opens_front input -> text_lines ls input -> ls = lit "---" :: fs ++ bad :: rest ->
  Forall2 pair_line kvs fs -> Forall (fun l => ~ dashes l) fs -> ~ dashes bad -> (forall kv, ~ pair_line kv bad) ->
  parse_markdown ext plugins file input = Err (TB file (2 + N.of_nat (length fs)) 0 PE_InvalidFrontmatter).
Proof.
  intros Ho Hl E Hp Hf Hd Hb. unfold parse_markdown. apply opens_iff in Ho. rewrite Ho.
  rewrite (lines_text _ _ Hl), E.
  assert (Hfl : front_loop 0 false [] (lit "---" :: fs ++ bad :: rest) = FrBad (2 + N.of_nat (length fs))).
  { cbn [front_loop]. replace (starts_with (lit "---") (lit "---")) with true by reflexivity.
    rewrite (front_loop_pairs fs kvs) by auto. cbn [app front_loop].
    rewrite (dashes_false _ Hd).
    destruct (front_line bad) as [kv|] eqn:Eb; [apply front_line_iff in Eb; exfalso; eapply Hb; eauto|].
    f_equal. lia. }
  rewrite Hfl. reflexivity.
Qed.
Theorem markdown_unclosed ext plugins file input ls fs kvs :
  opens_front input -> text_lines ls input -> ls = lit "---" :: fs ->
  Forall2 pair_line kvs fs -> Forall (fun l => ~ dashes l) fs ->
  parse_markdown ext plugins file input = Err (TB file (1 + N.of_nat (length fs)) 0 PE_UnexpectedEOF).
Proof.
  intros Ho Hl E Hp Hf. unfold parse_markdown. apply opens_iff in Ho. rewrite Ho.
  rewrite (lines_text _ _ Hl), E.
  assert (Hfl : front_loop 0 false [] (lit "---" :: fs) = FrOpen).
  { cbn [front_loop]. replace (starts_with (lit "---") (lit "---")) with true by reflexivity.
    rewrite <- (app_nil_r fs). rewrite (front_loop_pairs fs kvs) by auto. reflexivity. }
  rewrite Hfl. cbn [bind length]. do 2 f_equal. lia.
Qed.
Theorem markdown_none ext plugins file input ls :
  ~ opens_front input -> text_lines ls input ->
  parse_markdown ext plugins file input = md_result ext plugins file [] (with_lf ls).
Proof.
  intros Ho Hl. unfold parse_markdown.
  destruct (starts_with (lit "---" ++ [c_lf]) input || starts_with (lit "---" ++ [c_cr; c_lf]) input) eqn:E.
  - apply opens_iff in E. contradiction.
  - cbn [bind skipn]. rewrite (lines_text _ _ Hl), with_lf_join. apply md_result_bind.
Qed.
(** These are all the cases. *)
Lemma dashes_dec l : {dashes l} + {~ dashes l}.
Proof.
  destruct (starts_with (lit "---") l) eqn:E; [left; now apply dashes_iff|right].
  intros H. apply dashes_iff in H. congruence.
Qed.
Theorem markdown_cases input : opens_front input -> exists fs kvs, Forall2 pair_line kvs fs /\ Forall (fun l => ~ dashes l) fs /\
  (text_lines (lit "---" :: fs) input \/
   (exists d body, dashes d /\ text_lines (lit "---" :: fs ++ d :: body) input) \/
   (exists bad rest, ~ dashes bad /\ (forall kv, ~ pair_line kv bad) /\ text_lines (lit "---" :: fs ++ bad :: rest) input)).
Proof.
  intros Ho. pose proof (lines_spec input) as HL. destruct (opens_lines _ Ho) as [ls E]. rewrite E in HL. clear E Ho.
  assert (H : exists fs kvs rest, ls = fs ++ rest /\ Forall2 pair_line kvs fs /\ Forall (fun l => ~ dashes l) fs /\
    match rest with [] => True | d :: _ => dashes d \/ ~ dashes d /\ forall kv, ~ pair_line kv d end).
  { clear HL. induction ls as [|l ls (fs & kvs & rest & -> & H1 & H2 & H3)].
    - exists [], [], []. repeat split; auto.
    - destruct (dashes_dec l) as [Hd|Hd]; [exists [], [], (l :: fs ++ rest); repeat split; auto|].
      destruct (front_line l) as [kv|] eqn:Ef.
      + exists (l :: fs), (kv :: kvs), rest. repeat split; auto. constructor; auto. now apply front_line_iff.
      + exists [], [], (l :: fs ++ rest). repeat split; auto. right. split; auto.
        intros kv Hkv. apply front_line_iff in Hkv. congruence. }
  destruct H as (fs & kvs & rest & -> & H1 & H2 & H3). exists fs, kvs. split; auto. split; auto.
  destruct rest as [|d rest].
  - left. now rewrite app_nil_r in HL.
  - right. destruct H3 as [H3|[H3 H4]]; [left|right]; eauto 6.
Qed.

(** ** Lines of tags *)
Lemma with_lf_prefix ls : (forall l, In l ls -> ~ In c_lf l) -> forall q x, with_lf ls = q ++ x -> ls <> [] ->
  exists pre cur post l first r, ls = pre ++ cur :: post /\ last_line_is q l first /\ cur = l ++ r /\
    newlines q = N.of_nat (length pre).
Proof.
  induction ls as [|m ls IH]; intros Hno q x E Hne; [congruence|].
  assert (Hm : ~ In c_lf m) by (apply Hno; now left).
  assert (Hin : forall y, m = q ++ y -> exists pre cur post l first r,
    m :: ls = pre ++ cur :: post /\ last_line_is q l first /\ cur = l ++ r /\ newlines q = N.of_nat (length pre)).
  { intros y Ey. assert (Hq : ~ In c_lf q) by (intros Hin; apply Hm; rewrite Ey; apply in_app_iff; now left).
    exists [], m, ls, q, true, y. split; [reflexivity|]. split; [split; auto|]. split; [exact Ey|].
    now apply newlines_none. }
  destruct ls as [|n ls].
  - exact (Hin x E).
  - change (with_lf (m :: n :: ls)) with (m ++ [c_lf] ++ with_lf (n :: ls)) in E.
    clear Hne. revert m Hm Hin E Hno. clear - IH. intros m Hm Hin E Hno.
    destruct (Nat.le_gt_cases (length q) (length m)) as [Hl|Hl].
    + (* inside the first line *)
      assert (Eq : m = q ++ skipn (length q) m).
      { rewrite <- (firstn_skipn (length q) m) at 1. f_equal.
        apply (f_equal (firstn (length q))) in E. rewrite firstn_app in E.
        replace (length q - length m)%nat with O in E by lia. rewrite app_nil_r in E.
        rewrite E, firstn_app, Nat.sub_diag, app_nil_r. apply firstn_all. }
      exact (Hin _ Eq).
    + assert (Eq : exists q', q = m ++ [c_lf] ++ q' /\ with_lf (n :: ls) = q' ++ x).
      { exists (skipn (S (length m)) q).
        assert (E1 : q = m ++ [c_lf] ++ skipn (S (length m)) q).
        { rewrite <- (firstn_skipn (S (length m)) q) at 1. rewrite app_assoc. f_equal.
          apply (f_equal (firstn (S (length m)))) in E. rewrite (firstn_app (S (length m)) q) in E.
          replace (S (length m) - length q)%nat with O in E by lia. rewrite app_nil_r in E.
          rewrite <- E. rewrite firstn_app. rewrite firstn_all2 by lia.
          replace (S (length m) - length m)%nat with 1%nat by lia. reflexivity. }
        split; auto. rewrite E1 in E. rewrite <- !app_assoc in E. apply app_inv_head in E.
        cbn [app] in E. now injection E. }
      destruct Eq as (q' & -> & Eq').
      destruct (IH) with (q := q') (x := x) as (pre & cur & post & l & first & r & E1 & HL & E2 & En); auto.
      { intros l Hl'. apply Hno. now right. }
      { discriminate. }
      exists (m :: pre), cur, post, l, false, r. split; [now rewrite E1|].
      split; [|split; auto].
      * destruct HL as [HL1 HL2]. split; auto. destruct first.
        -- subst q'. exists m. reflexivity.
        -- destruct HL2 as [p ->]. exists (m ++ [c_lf] ++ p). now rewrite <- !app_assoc.
      * rewrite !newlines_app, (newlines_none m) by auto. rewrite En. change (newlines [c_lf]) with 1.
        cbn [length]. lia.
Qed.
Lemma last_line_unique q l1 f1 l2 f2 : last_line_is q l1 f1 -> last_line_is q l2 f2 -> l1 = l2 /\ f1 = f2.
Proof.
  assert (H : forall a p b, ~ In c_lf a -> a = p ++ [c_lf] ++ b -> False).
  { intros a p b Ha ->. apply Ha, in_app_iff. right. now left. }
  intros [A1 B1] [A2 B2]. destruct f1, f2.
  - subst. auto.
  - destruct B2 as [p E]. subst q. exfalso. eauto.
  - destruct B1 as [p E]. subst q. exfalso. eapply (H l2); eauto.
  - destruct B1 as [p ->]. destruct B2 as [p2 E]. split; auto.
    rewrite <- (since_newline_app p l1) by auto. rewrite E. now apply since_newline_app.
Qed.

Lemma md_result_ok ext plugins file fm body m : md_result ext plugins file fm body = Ok m ->
  exists toks, parse_html ext plugins file body = Ok toks /\ m = Markdown fm toks body None.
Proof.
  unfold md_result. destruct (parse_html ext plugins file body); try discriminate.
  intros H. injection H as <-. eauto.
Qed.
Lemma opens_dec t : {opens_front t} + {~ opens_front t}.
Proof.
  destruct (starts_with (lit "---" ++ [c_lf]) t || starts_with (lit "---" ++ [c_cr; c_lf]) t) eqn:E.
  - left. now apply opens_iff.
  - right. intros H. apply opens_iff in H. congruence.
Qed.
Lemma markdown_ok ext plugins file input m : parse_markdown ext plugins file input = Ok m ->
  exists fl body toks, text_lines (fl ++ body) input /\ front_height input fl /\
    md_string m = with_lf body /\ md_tokens m = toks /\ parse_html ext plugins file (with_lf body) = Ok toks.
Proof.
  intros H. destruct (opens_dec input) as [Ho|Ho].
  - destruct (markdown_cases input Ho) as (fs & kvs & H1 & H2 & [HT|[(d & body & Hd & HT)|(bad & rest & Hb & Hp & HT)]]).
    + rewrite (markdown_unclosed ext plugins file input _ fs kvs Ho HT eq_refl H1 H2) in H. discriminate.
    + rewrite (markdown_front ext plugins file input _ fs kvs d body Ho HT eq_refl H1 H2 Hd) in H.
      apply md_result_ok in H as (toks & E & ->). exists (lit "---" :: fs ++ [d]), body, toks.
      split; [|repeat split; auto].
      * cbn [app] in *. rewrite <- app_assoc. exact HT.
      * right. split; auto. eauto.
    + rewrite (markdown_bad_line ext plugins file input _ fs kvs bad rest Ho HT eq_refl H1 H2 Hb Hp) in H. discriminate.
  - pose proof (lines_spec input) as HL.
    rewrite (markdown_none ext plugins file input _ Ho HL) in H. apply md_result_ok in H as (toks & E & ->).
    exists [], (lines input), toks. split; [exact HL|]. repeat split; auto. now left.
Qed.
Theorem markdown_tag_lines ext plugins file input m k loc :
  parse_markdown ext plugins file input = Ok m -> In (LTok k loc) (md_tokens m) -> is_tag k ->
  exists fl pre cur post q c l first r,
    text_lines (fl ++ pre ++ cur :: post) input /\ front_height input fl /\
    md_string m = with_lf (pre ++ cur :: post) /\
    tag_at ext (md_string m) k (q ++ [c]) /\ last_line_is q l first /\ cur = l ++ r /\
    newlines q = N.of_nat (length pre) /\ l_line loc = 1 + N.of_nat (length pre).
Proof.
  intros H Hin Hk. apply markdown_ok in H as (fl & body & toks & HT & HF & Em & Et & HP).
  rewrite Et in Hin. destruct (parse_html_tags _ _ _ _ _ _ _ HP Hin Hk) as (q & c & l & first & HA & HL & ->).
  assert (Hx : exists x, with_lf body = q ++ x).
  { destruct HA as (src & w & b & rest & _ & _ & _ & E). exists ([c] ++ b ++ close_tag ++ rest).
    rewrite E. now rewrite <- !app_assoc. }
  destruct Hx as [x Hx].
  assert (Hne : body <> []).
  { intros ->. destruct HA as (src & w & b & rest & _ & _ & _ & E). destruct q; discriminate. }
  destruct (with_lf_prefix body) with (q := q) (x := x) as (pre & cur & post & l' & first' & r & E1 & HL' & E2 & En); auto.
  { intros y Hy. eapply text_no_lf; eauto. apply in_app_iff. now right. }
  exists fl, pre, cur, post, q, c, l', first', r. rewrite Em. subst body. do 7 (split; [assumption || reflexivity|]).
  cbn [l_line]. now rewrite En.
Qed.
Lemma body_kept_lines t ls : text_lines ls t -> ~ In c_cr t -> (forall t', t <> t' ++ [c_lf]) -> with_lf ls = t.
Proof. intros H. rewrite <- (lines_text _ _ H). apply body_kept. Qed.

(** The witness for C13: one tag, on line 3 of the file. *)
Definition c13_input : text := lit "---" ++ [c_lf] ++ lit "---" ++ [c_lf] ++ lit "{{$x}}".
Lemma c13_unique q : tag_at (fun _ => false) c13_input (TVar (lit "x")) q ->
  q = lit "---" ++ [c_lf] ++ lit "---" ++ [c_lf] ++ lit "{{".
Proof.
  intros (src & w & body & rest & -> & Hw & Hs & E).
  assert (Hd : exists r, body = c_dollar :: r).
  { inversion Hs; subst. eauto. }
  destruct Hd as [r ->].
  assert (Hpos : length (src ++ open_tag ++ w) = 10%nat /\ True).
  { split; auto.
    remember (src ++ open_tag ++ w) as q eqn:Eq.
    assert (Hn : nth_error c13_input (length q) = Some c_dollar).
    { rewrite E. rewrite nth_error_app2 by lia. rewrite Nat.sub_diag. reflexivity. }
    clear - Hn. remember (length q) as n. clear Heqn q.
    do 15 (destruct n as [|n]; [try reflexivity; discriminate|]). destruct n; discriminate. }
  destruct Hpos as [Hpos _].
  assert (Hl : forall a b c d : text, a ++ b = c ++ d -> length a = length c -> a = c).
  { clear. induction a as [|x a IH]; intros b [|y c] d E Hl; try discriminate; auto.
    injection E as -> E. injection Hl as Hl. f_equal. eauto. }
  symmetry. apply (Hl _ (lit "$x}}") _ ((c_dollar :: r) ++ close_tag ++ rest)); [exact E|].
  rewrite Hpos. reflexivity.
Qed.
Lemma markdown_lines_refuted : exists ext plugins file input m k loc q,
  parse_markdown ext plugins file input = Ok m /\ In (LTok k loc) (md_tokens m) /\
  tag_at ext input k q /\ ~ (exists q', tag_at ext input k q' /\ q' <> q) /\
  l_line loc <> 1 + newlines q.
Proof.
  exists (fun _ => false), [], [], c13_input.
  eexists. exists (TVar (lit "x")). eexists. exists (lit "---" ++ [c_lf] ++ lit "---" ++ [c_lf] ++ lit "{{").
  split; [vm_compute; reflexivity|]. split; [left; reflexivity|]. split.
  - exists (lit "---" ++ [c_lf] ++ lit "---" ++ [c_lf]), [], (lit "$x"), []. repeat split.
    apply (ts_var _ (lit "x") []); [discriminate|reflexivity|reflexivity].
  - split; [|vm_compute; discriminate]. intros (q' & H & Hne). apply Hne. now apply c13_unique.
Qed.
