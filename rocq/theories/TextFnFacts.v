(** TextFnFacts.v -- excerpt and timetoread (C29, C30). *)

From Coq Require Import String List NArith ZArith Bool Lia.
From Verif Require Import Text TextFacts CharFacts Utf8 Json Base Syntax Parse Tree Interp SpecTemplate SpecScope InterpFacts ScopeFacts
  SpecRender SpecBlocks.
Import ListNotations.
Local Open Scope N_scope.

(** ** excerpt *)
Lemma byte_len_app a b : byte_len (a ++ b) = byte_len a + byte_len b.
Proof. induction a as [|c a IH]; cbn [byte_len app]; [lia|]. rewrite IH. lia. Qed.
Lemma len1_pos c : 1 <= len1 c.
Proof. unfold len1. destruct (c <? 128), (c <? 2048), (c <? 65536); lia. Qed.
Lemma byte_len_length t : N.of_nat (length t) <= byte_len t.
Proof. induction t as [|c t IH]; cbn [byte_len length]; [lia|]. assert (X := len1_pos c). lia. Qed.
Lemma byte_len_ascii t : ascii t -> byte_len t = N.of_nat (length t).
Proof.
  intros H. induction H as [|c t H1 H2 IH]; cbn [byte_len length]; [reflexivity|]. unfold len1.
  destruct (N.ltb_spec c 128); lia.
Qed.

Lemma excerpt_loop_spec len t : forall tag k, exists c rest, t = c ++ rest /\
  excerpt_loop len tag k t = (untag tag c, N.of_nat (length c)) /\
  (rest = [] \/ len <= k + byte_len (untag tag c)) /\
  forall c' x y, c = c' ++ x :: y -> k + byte_len (untag tag c') < len.
Proof.
  induction t as [|a t IH]; intros tag k; cbn [excerpt_loop]; destruct (N.leb_spec len k) as [L|L].
  - exists [], []. repeat split; [now left|]. intros c' x y E. destruct c'; discriminate.
  - exists [], []. repeat split; [now left|]. intros c' x y E. destruct c'; discriminate.
  - exists [], (a :: t). repeat split; [right; cbn; lia|]. intros c' x y E. destruct c'; discriminate.
  - assert (STEP : forall tag' k', untag tag [a] = [] \/ untag tag [a] = [a] ->
      (forall c, untag tag (a :: c) = untag tag [a] ++ untag tag' c) -> k' = k + byte_len (untag tag [a]) ->
      exists c rest, a :: t = c ++ rest /\
        (let (r, n) := excerpt_loop len tag' k' t in (untag tag [a] ++ r, N.succ n)) = (untag tag c, N.of_nat (length c)) /\
        (rest = [] \/ len <= k + byte_len (untag tag c)) /\
        forall c' x y, c = c' ++ x :: y -> k + byte_len (untag tag c') < len).
    { intros tag' k' _ U ->. destruct (IH tag' (k + byte_len (untag tag [a]))) as (c & rest & E & X & R & M).
      exists (a :: c), rest. rewrite E. split; [reflexivity|]. rewrite <- E, X. split; [|split].
      - rewrite (U c). f_equal. cbn [length]. now rewrite Nat2N.inj_succ.
      - destruct R as [R|R]; [now left|right]. rewrite (U c), byte_len_app. lia.
      - intros c' x y Q. destruct c' as [|b c']; cbn in Q.
        + cbn. lia.
        + injection Q as <- Q. rewrite (U c'), byte_len_app. specialize (M c' x y Q). lia. }
    destruct (N.eqb_spec a c_lt) as [->|N1].
    { destruct (STEP true k) as (c & rest & E & X & R); [now left|reflexivity|cbn; lia|]. exists c, rest. split; [exact E|]. split; [|exact R].
      rewrite <- X. cbn. now destruct (excerpt_loop len true k t). }
    destruct (N.eqb_spec a c_gt) as [->|N2].
    { destruct (STEP false k) as (c & rest & E & X & R); [now left|reflexivity|cbn; lia|]. exists c, rest. split; [exact E|]. split; [|exact R].
      rewrite <- X. cbn. now destruct (excerpt_loop len false k t). }
    assert (U : forall c, untag tag (a :: c) = (if tag then [] else [a]) ++ untag tag c).
    { intros c. cbn [untag]. rewrite (proj2 (N.eqb_neq a c_lt) N1), (proj2 (N.eqb_neq a c_gt) N2). now destruct tag. }
    assert (U1 : untag tag [a] = if tag then [] else [a]) by (rewrite U; cbn; apply app_nil_r).
    destruct tag.
    + destruct (STEP true k) as (c & rest & E & X & R); [rewrite U1; now left|intros c; now rewrite U1, U|rewrite U1; cbn; lia|].
      exists c, rest. split; [exact E|]. split; [|exact R]. rewrite <- X, U1. cbn [app]. now destruct (excerpt_loop len true k t).
    + destruct (STEP false (k + len1 a)) as (c & rest & E & X & R); [rewrite U1; now right|intros c; now rewrite U1, U|rewrite U1; cbn; lia|].
      exists c, rest. split; [exact E|]. split; [|exact R]. rewrite <- X, U1. cbn [app]. now destruct (excerpt_loop len false (k + len1 a) t).
Qed.

Lemma excerpt_spec n s : exists c rest dots, reads n s c rest /\ excerpt n s = untag false c ++ dots /\
  (dots = [] \/ dots = lit "...") /\ (rest <> [] -> dots = lit "...") /\ (ascii s -> rest = [] -> dots = []).
Proof.
  destruct (excerpt_loop_spec n s false 0) as (c & rest & E & X & R & M).
  exists c, rest, (if N.of_nat (length c) <? byte_len s then lit "..." else []). split; [|split; [|split; [|split]]].
  - split; [exact E|]. split; [exact R|]. intros c' x y Q. exact (M c' x y Q).
  - unfold excerpt. rewrite X. destruct (N.of_nat (length c) <? byte_len s); [reflexivity|now rewrite app_nil_r].
  - destruct (N.of_nat (length c) <? byte_len s); [now right|now left].
  - intros H. destruct (N.ltb_spec (N.of_nat (length c)) (byte_len s)) as [L|L]; [reflexivity|exfalso].
    rewrite E, byte_len_app in L. assert (Y := byte_len_length c). assert (Z := byte_len_length rest).
    destruct rest; [now apply H|]. cbn [length] in Z. lia.
  - intros A ->. rewrite app_nil_r in E. subst c. rewrite (byte_len_ascii s A), N.ltb_irrefl. reflexivity.
Qed.
Lemma reads_unique n s c rest c' rest' : reads n s c rest -> reads n s c' rest' -> c = c'.
Proof.
  intros (E & R & M) (E' & R' & M').
  assert (T : forall (a b x y : text), a ++ x = b ++ y -> a = b \/ (exists z u, b = a ++ z :: u) \/ (exists z u, a = b ++ z :: u)).
  { induction a as [|h a IHa]; intros [|k b] x y Q.
    - now left.
    - right; left. now exists k, b.
    - right; right. now exists h, a.
    - cbn in Q. injection Q as -> Q. destruct (IHa b x y Q) as [->|[(z & u & ->)|(z & u & ->)]].
      + now left.
      + right; left. now exists z, u.
      + right; right. now exists z, u. }
  destruct (T c c' rest rest' ltac:(congruence)) as [Q|[(z & u & Q)|(z & u & Q)]]; [exact Q| |].
  - exfalso. specialize (M' c z u Q). destruct R as [->|R]; [|lia]. rewrite app_nil_r in E. subst c.
    assert (L := f_equal (@length N) E'). rewrite Q in L. rewrite !app_length in L. cbn in L. tlia.
  - exfalso. specialize (M c' z u Q). destruct R' as [->|R']; [|lia]. rewrite app_nil_r in E'. subst c'.
    assert (L := f_equal (@length N) E). rewrite Q in L. rewrite !app_length in L. cbn in L. tlia.
Qed.

Lemma string_visible h p s f r v0 x : ~ In c_dot h -> Forall (fun k => ~ In c_dot k) p -> sc_stack s = f :: r ->
  visible h (f :: r) v0 -> field v0 p (VStr x) -> string_var (dotted h p) s = Ok x.
Proof.
  intros Hh Hp S V F. unfold string_var. rewrite S.
  now rewrite (proj2 (get_variable_iff h p (f :: r) (VStr x) Hh Hp) (ex_intro _ v0 (conj V F))).
Qed.
Lemma excerpt_exec k w l h p n s f r v0 x : ~ In c_dot h -> Forall (fun q => ~ In c_dot q) p ->
  current w s = Some (LTok (TFun (FExcerpt (dotted h p) n)) l) -> sc_stack s = f :: r ->
  visible h (f :: r) v0 -> field v0 p (VStr x) ->
  exists c rest dots, reads n x c rest /\ (dots = [] \/ dots = lit "...") /\ (rest <> [] -> dots = lit "...") /\
    (ascii x -> rest = [] -> dots = []) /\
    exec (S k) w (LTok (TFun (FExcerpt (dotted h p) n)) l) s =
    Ok (Scope (sc_idx s) (Frame (fr_name f) (fr_vars f) (fr_out f ++ enc (untag false c ++ dots)) :: r) (sc_secs s)).
Proof.
  intros Hh Hp C S V F. destruct (excerpt_spec n x) as (c & rest & dots & R & E & D1 & D2 & D3).
  exists c, rest, dots. split; [exact R|]. split; [exact D1|]. split; [exact D2|]. split; [exact D3|].
  cbn [exec t_inner exec_fn]. unfold with_current. rewrite C, (string_visible h p s f r v0 x Hh Hp S V F). cbn [bind].
  rewrite (output_ok _ s f r S), E. reflexivity.
Qed.
Lemma excerpt_refuted : exists n s, reads n s s [] /\ excerpt n s = s ++ lit "...".
Proof.
  exists 100, [233]. split; [|reflexivity]. split; [reflexivity|]. split; [now left|].
  intros c' x y E. destruct c' as [|a [|b c']]; [reflexivity|discriminate|discriminate].
Qed.

(** ** timetoread *)
Lemma words_count t ws : words t ws -> word_count t = N.of_nat (length ws).
Proof.
  assert (B : forall a x, blank a -> word_count_aux false (a ++ x) = word_count_aux false x).
  { intros a x H. unfold blank in H. induction a as [|c a IH]; [reflexivity|]. cbn [forallb] in H. apply andb_true_iff in H. destruct H as [H1 H2].
    cbn [app word_count_aux]. rewrite <- white_ws, H1. now apply IH. }
  assert (W : forall w b x, Forall (fun c => white c = false) w -> (b = [] \/ exists c b', b = c :: b' /\ white c = true) ->
    x = word_count_aux false b -> word_count_aux true (w ++ b) = x).
  { intros w b x H Hb ->. induction H as [|c w H1 H2 IH]; cbn [app word_count_aux].
    - destruct Hb as [->|(c & b' & -> & E)]; [reflexivity|]. cbn [word_count_aux]. now rewrite <- white_ws, E.
    - rewrite <- white_ws, H1, IH. lia. }
  intros H. unfold word_count. induction H as [a Ha|a w b ws Ha Hw Fw Hb Hws IH].
  - rewrite <- (app_nil_r a). now rewrite B.
  - rewrite B by exact Ha. destruct w as [|c w]; [now destruct Hw|]. inversion Fw as [|? ? F1 F2]; subst.
    cbn [app word_count_aux length]. rewrite <- white_ws, F1, (W w b _ F2 Hb eq_refl), IH. lia.
Qed.
Lemma words_exist t : exists ws, words t ws.
Proof.
  assert (G : forall n t, (length t <= n)%nat -> exists ws, words t ws); [|now apply (G (length t) t)].
  clear t. induction n as [|n IH]; intros t L.
  - destruct t; [|cbn in L; lia]. exists []. now constructor.
  - assert (S1 := drop_while_spec is_whitespace t). destruct S1 as (a & E & A & H).
    destruct (drop_while is_whitespace t) as [|c u] eqn:D.
    + exists []. constructor. rewrite E, app_nil_r. auto.
    + assert (S2 := drop_while_spec (fun x => negb (is_whitespace x)) (c :: u)). destruct S2 as (w & E2 & W & H2).
      set (b := drop_while (fun x => negb (is_whitespace x)) (c :: u)) in *. clearbody b.
      assert (NW : w <> []).
      { intros ->. cbn [app] in E2. rewrite <- E2 in H2. apply negb_false_iff in H2. congruence. }
      destruct (IH b) as [ws Hws].
      { rewrite E, E2, !app_length in L. destruct w; [now destruct NW|]. cbn [length] in L. tlia. }
      exists (w :: ws). rewrite E, E2. apply wo_word; [auto|exact NW| | |exact Hws].
      * apply Forall_forall. intros x X. rewrite forallb_forall in W. specialize (W x X). rewrite white_ws. now apply negb_true_iff in W.
      * destruct b as [|c' r']; [now left|right]. exists c', r'. split; [reflexivity|]. rewrite white_ws. now apply negb_false_iff in H2.
Qed.

Lemma dec_aux_head fuel : forall n acc, n < 2 ^ N.of_nat fuel -> fuel <> O -> n <> 0 -> hd 0 (dec_aux fuel n acc) <> 48.
Proof.
  induction fuel as [|f IH]; intros n acc Hn Hf Hz; [congruence|].
  cbn [dec_aux]. destruct (N.ltb_spec n 10) as [H|H].
  - cbn [hd]. rewrite N.mod_small by lia. lia.
  - apply IH.
    + rewrite Nat2N.inj_succ, N.pow_succ_r in Hn by lia. apply N.div_lt_upper_bound; lia.
    + intros ->. change (2 ^ N.of_nat 1) with 2 in Hn. lia.
    + assert (n / 10 <> 0); [|assumption]. intros E. apply N.div_small_iff in E; lia.
Qed.
Lemma show_N_decimal n : decimal n (show_N n).
Proof.
  split.
  - destruct (show_N_spec n) as (E & Z & _). now apply digits_val_iff.
  - intros c r E. destruct (N.eq_dec n 0) as [->|Z]; [discriminate|].
    assert (H := dec_aux_head (S (N.to_nat (N.log2 n))) n []). unfold show_N in E. rewrite E in H. cbn [hd] in H.
    apply H; [|congruence|exact Z|reflexivity]. rewrite Nat2N.inj_succ, N2Nat.id. apply N.log2_spec. lia.
Qed.
Lemma time_exec k w l h p s f r v0 x ws : ~ In c_dot h -> Forall (fun q => ~ In c_dot q) p ->
  current w s = Some (LTok (TFun (FTime (dotted h p))) l) -> sc_stack s = f :: r ->
  visible h (f :: r) v0 -> field v0 p (VStr x) -> words x ws ->
  exists t, decimal (N.max 1 (N.of_nat (length ws) / 200)) t /\
    exec (S k) w (LTok (TFun (FTime (dotted h p))) l) s =
    Ok (Scope (sc_idx s) (Frame (fr_name f) (fr_vars f) (fr_out f ++ enc t) :: r) (sc_secs s)).
Proof.
  intros Hh Hp C S V F W. exists (show_N (minutes x)). split.
  - unfold minutes. rewrite (words_count x ws W), N.max_comm. apply show_N_decimal.
  - cbn [exec t_inner exec_fn]. unfold with_current. rewrite C, (string_visible h p s f r v0 x Hh Hp S V F). cbn [bind].
    rewrite (output_ok _ s f r S). reflexivity.
Qed.
