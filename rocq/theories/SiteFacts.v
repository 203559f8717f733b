(** SiteFacts.v -- from the files of the content directory to the pages (C61). *)

From Coq Require Import String List NArith ZArith Bool Lia.
From Verif Require Import Text TextFacts Utf8 Json Base Syntax Parse Tree Interp Build.
From Verif Require Import SpecScope SpecPage SpecRender SpecTemplate SpecLoop SpecBlocks SpecMarkdown SpecTree SpecSite.
From Verif Require Import Utf8Facts ScopeFacts InterpFacts RenderFacts SelectFacts BlockFacts TextFnFacts LoopFacts ParseErr MarkdownFacts
  TreeFacts PathFacts BuildTotal GrammarFacts.
Import ListNotations.

Lemma map_res_all {E A B} (f : A -> res E B) l : (forall x, In x l -> exists y, f x = Ok y) -> exists l', map_res f l = Ok l'.
Proof.
  induction l as [|x l IH]; intros H; cbn [map_res]; [now eexists|]. destruct (H x (or_introl eq_refl)) as [y ->]. cbn [bind].
  destruct IH as [l' ->]; [intros z I; apply H; now right|]. cbn [bind]. now eexists.
Qed.

Lemma Forall2_in_r {A B} (P : A -> B -> Prop) l l' y : Forall2 P l l' -> In y l' -> exists x, In x l /\ P x y.
Proof.
  induction 1 as [|a b l l' H F IH]; intros I; [destruct I|]. destruct I as [<-|I]; [exists a; split; [now left|exact H]|].
  destruct (IH I) as (x & J & Q). exists x. split; [now right|exact Q].
Qed.

(** ** Variables *)
Lemma bound_visible k sc v : bound k sc v <-> SpecScope.visible k (frames sc) v.
Proof.
  split.
  - intros (i & vs & o & -> & B & F). exists (frames i), (of_vars vs), (frames o). split; [unfold frames; now rewrite map_app|]. split; [exact B|].
    unfold frames. apply Forall_map. exact F.
  - intros (i & f & o & E & B & F). unfold frames in E. apply map_eq_app in E. destruct E as (a & b & -> & <- & E).
    destruct b as [|vs b]; [discriminate|]. cbn in E. injection E as <- <-. exists a, vs, b. split; [reflexivity|]. split; [exact B|].
    apply (Forall_map of_vars (fun g => ~ In k (map fst (fr_vars g)))) in F. exact F.
Qed.
Lemma value_get name sc v : value_of name sc v <-> get_variable name (frames sc) = Some v.
Proof.
  split.
  - intros (k & p & v0 & -> & Hk & Hp & B & F). apply get_variable_iff; [exact Hk|exact Hp|]. exists v0. split; [now apply bound_visible|exact F].
  - intros E. destruct (name_parts name) as (k & p & -> & Hk & Hp). apply (get_variable_iff k p _ v Hk Hp) in E. destruct E as (v0 & V & F).
    exists k, p, v0. repeat split; auto. now apply bound_visible.
Qed.
Lemma value_text v sc x : value_of v sc (VStr x) -> text_of v sc = Ok x.
Proof. intros H. apply value_get in H. unfold text_of. now rewrite H. Qed.
Lemma means_eval sc i x : means sc i x -> eval_input i (frames sc) = Some (to_input x).
Proof.
  intros H. destruct H as [z|s|v s V|v f z V T]; cbn [eval_input to_input]; try reflexivity; apply value_get in V; rewrite V; [reflexivity|].
  now rewrite (truncated_fun f z (f64_as_i32 f) T (truncated_spec f)).
Qed.
Lemma cond_made c x y : cond c (to_input x) (to_input y) = true <-> compares (made c) x y.
Proof. destruct c; cbn [made]; try (apply cond_spec; discriminate). change (cond CLe (to_input x) (to_input y)) with (cond CLt (to_input x) (to_input y)). apply cond_spec; discriminate. Qed.
Lemma excerpt_wide n t : reads n t t [] -> ~ ascii t -> excerpt n t = untag false t ++ lit "...".
Proof.
  intros R A. unfold excerpt. destruct (excerpt_loop_spec n t false 0) as (c & rest & E & X & R' & M).
  assert (R2 : reads n t c rest) by (split; [exact E|split; [exact R'|intros c' x y Q; exact (M c' x y Q)]]).
  assert (Y := reads_unique _ _ _ _ _ _ R2 R). subst c. rewrite X.
  destruct (N.ltb_spec (N.of_nat (length t)) (byte_len t)) as [L|L]; [reflexivity|]. destruct A. clear -L.
  induction t as [|c t IH]; [constructor|]. cbn [byte_len length] in L. assert (Y := byte_len_length t).
  unfold len1 in L. destruct (N.ltb_spec c 128) as [C|C].
  - constructor; [exact C|]. apply IH. lia.
  - exfalso. destruct (c <? 2048)%N; [lia|]. destruct (c <? 65536)%N; lia.
Qed.
Lemma decided_holds sc c b : decided sc c b -> holds c sc = Ok b.
Proof.
  intros H. destruct H as [v x V N|v N|c a b x y A B C|c a b x y A B C]; cbn [holds].
  - apply value_get in V. rewrite V. destruct x; try reflexivity. now destruct N.
  - destruct (get_variable v (frames sc)) as [x|] eqn:G; [|reflexivity]. apply value_get in G. apply N in G. now subst x.
  - rewrite (means_eval _ _ _ A), (means_eval _ _ _ B). cbn [ok_or bind]. now rewrite (proj2 (cond_made c x y) C).
  - rewrite (means_eval _ _ _ A), (means_eval _ _ _ B). cbn [ok_or bind]. destruct (cond c (to_input x) (to_input y)) eqn:E; [|reflexivity].
    now apply (cond_made c x y) in E.
Qed.

(** ** Decimal notation is unique *)
Lemma digits_zero t : digits 0 t -> exists r, t = 48%N :: r.
Proof.
  intros H. remember 0%N as n eqn:E. induction H as [d Hd|n t d H IH Hd].
  - subst d. now exists [].
  - assert (n = 0%N) by lia. assert (d = 0%N) by lia. subst. destruct IH as [r ->]; [reflexivity|]. now exists (r ++ [48%N]).
Qed.
Lemma decimal_unique n t : decimal n t -> forall t', decimal n t' -> t = t'.
Proof.
  intros [D C]. revert C. induction D as [d Hd|n t d D IH Hd]; intros C t' [D' C'].
  - inversion D' as [d' Hd'|m u d' Du Hd' E1 E2]; subst; [reflexivity|]. assert (m = 0%N) by lia. subst m.
    destruct (digits_zero u Du) as [r ->]. cbn in C'. destruct r; cbn in C'; now destruct (C' _ _ eq_refl).
  - inversion D' as [d' Hd'|m u d' Du Hd' E1 E2]; subst.
    + assert (n = 0%N) by lia. subst n. destruct (digits_zero t D) as [r ->]. cbn in C. destruct r; cbn in C; now destruct (C _ _ eq_refl).
    + change (10 * m + d' = 10 * n + d)%N in E1. assert (m = n) by lia. assert (d' = d) by lia. subst. f_equal. apply IH.
      * intros c r ->. now destruct (C c (r ++ [(48 + d)%N]) eq_refl).
      * split; [exact Du|]. intros c r ->. now destruct (C' c (r ++ [(48 + d)%N]) eq_refl).
Qed.
Lemma utf8_enc o t : utf8_text o t -> enc t = o.
Proof. intros H. now apply utf8_text_iff in H. Qed.

(** ** Calls of plugin functions *)

(** The behaviour of a function, from what it does with an empty output. *)
Definition beh_of (p : plugin_fn) : behaviour := fun l sc secs =>
  match pf_exec p l (Scope 0 (frames sc) secs) with
  | Ok s => match sc_stack s with f :: _ => Ok (fr_out f, skipn (length (hd [] sc)) (fr_vars f)) | [] => OutOfFuel end
  | Err e => Err (tb_kind e)
  | Panic q => Panic q
  | OutOfFuel => OutOfFuel
  end.
Lemma frames_vars sc : map fr_vars (frames sc) = sc.
Proof. unfold frames. rewrite map_map. cbn. apply map_id. Qed.
Lemma beh_of_eq p beh l vs r secs : acts p beh -> beh_of p l (vs :: r) secs = beh l (vs :: r) secs.
Proof.
  intros A. unfold beh_of. rewrite (A l (Scope 0 (frames (vs :: r)) secs) (of_vars vs) (frames r) eq_refl). cbn [sc_stack sc_secs sc_idx]. rewrite frames_vars.
  destruct (beh l (vs :: r) secs) as [[o new]|e|q|]; try reflexivity. cbn [sc_stack fr_out fr_vars of_vars app hd].
  now rewrite skipn_app, skipn_all, Nat.sub_diag.
Qed.
Lemma acts_beh p beh : acts p beh -> acts p (beh_of p).
Proof.
  intros A l s f r E. rewrite (A l s f r E). rewrite E. cbn [map]. now rewrite (beh_of_eq p beh) by exact A.
Qed.

(** ** Blocks and items *)
Definition bare (b : block) : Prop :=
  match b with BPlugin _ | BSection _ _ | BFor _ _ | BIf _ _ | BIfElse _ _ _ => False | _ => True end.
Lemma bare_simple b : bare b -> simple b.
Proof. destruct b; try contradiction; intros _; exact I. Qed.
Inductive placed : block -> item -> Prop :=
| pl_simple b t : bare b -> tags b = [t_inner t] -> placed b (ILeaf t)
| pl_plugin p l : placed (BPlugin p) (IPlugin l p (beh_of p))
| pl_section label body items l l' : Forall2 placed body items ->
    placed (BSection label body) (ISection l label true items true l')
| pl_for f body items l l' : Forall2 placed body items -> placed (BFor f body) (IFor l f items l')
| pl_if c yes items l l' : Forall2 placed yes items -> placed (BIf c yes) (IIf l c items l')
| pl_ifelse c yes no items items' l le l' : Forall2 placed yes items -> Forall2 placed no items' ->
    placed (BIfElse c yes no) (IIfElse l c items le items' l').

Lemma block_ind2 (P : block -> Prop) :
  (forall b, bare b -> P b) -> (forall p, P (BPlugin p)) -> (forall label body, Forall P body -> P (BSection label body)) ->
  (forall f body, Forall P body -> P (BFor f body)) -> (forall c yes, Forall P yes -> P (BIf c yes)) ->
  (forall c yes no, Forall P yes -> Forall P no -> P (BIfElse c yes no)) -> forall b, P b.
Proof.
  intros H1 H0 H2 H3 H4 H5. fix IH 1.
  assert (L : forall l : list block, Forall P l) by (fix IHl 1; intros [|b l]; constructor; [apply IH|apply IHl]).
  intros [ | | | | | | |p|label body|f body|c yes|c yes no]; try (apply H1; exact I).
  - apply H0.
  - apply H2, L.
  - apply H3, L.
  - apply H4, L.
  - apply H5; apply L.
Qed.

Definition placeable (b : block) : Prop := forall toks rest, map t_inner toks = tags b ++ rest ->
  exists toks1 toks2 i, toks = toks1 ++ toks2 /\ map t_inner toks2 = rest /\ placed b i /\ flat i = toks1.
Lemma place_list l : Forall placeable l -> forall toks rest, map t_inner toks = flat_map tags l ++ rest ->
  exists toks1 toks2 items, toks = toks1 ++ toks2 /\ map t_inner toks2 = rest /\ Forall2 placed l items /\ flat_map flat items = toks1.
Proof.
  induction 1 as [|b l B F IH]; intros toks rest E.
  - exists [], toks, []. repeat split; auto.
  - cbn [flat_map] in E. rewrite <- app_assoc in E. destruct (B _ _ E) as (t1 & t2 & i & -> & E2 & P & Fi).
    destruct (IH _ _ E2) as (t3 & t4 & items & -> & E4 & Ps & Fs). exists (t1 ++ t3), t4, (i :: items). rewrite <- app_assoc.
    repeat split; auto. cbn [flat_map]. now rewrite Fi, Fs.
Qed.
Lemma place b : placeable b.
Proof.
  induction b as [b S|p|label body IH|f body IH|c yes IH|c yes no IH1 IH2] using block_ind2; intros toks rest E.
  - assert (X : exists t, tags b = [t]) by (destruct b; try destruct S; eexists; reflexivity). destruct X as [t X]. rewrite X in E.
    destruct toks as [|t1 toks]; [discriminate|]. cbn in E. injection E as <- E. exists [t1], toks, (ILeaf t1). repeat split; auto. now apply pl_simple.
  - destruct toks as [|[t1 l1] toks]; [discriminate|]. cbn in E. injection E as -> E. exists [LTok (TFun (FPlugin p)) l1], toks, (IPlugin l1 p (beh_of p)). repeat split; auto. constructor.
  - cbn [tags app] in E. destruct toks as [|[t1 l1] toks]; [discriminate|]. cbn [map t_inner] in E. injection E as -> E. rewrite <- app_assoc in E.
    destruct (place_list _ IH _ _ E) as (t2 & t3 & items & -> & E3 & P & F). cbn in E3.
    destruct t3 as [|[t3 l3] t4]; [discriminate|]. cbn in E3. injection E3 as -> E4.
    exists (LTok (TFun (FBegin label true)) l1 :: t2 ++ [LTok (TFun (FEnd label true)) l3]), t4, (ISection l1 label true items true l3).
    cbn [app flat section_end]. rewrite <- app_assoc, F. repeat split; auto. now constructor.
  - cbn [tags app] in E. destruct toks as [|[t1 l1] toks]; [discriminate|]. cbn [map t_inner] in E. injection E as -> E. rewrite <- app_assoc in E.
    destruct (place_list _ IH _ _ E) as (t2 & t3 & items & -> & E3 & P & F). cbn in E3.
    destruct t3 as [|[t3 l3] t4]; [discriminate|]. cbn in E3. injection E3 as -> E4.
    exists (LTok (TFun (FFor f)) l1 :: t2 ++ [LTok (TFun (FEnd (lit "for") false)) l3]), t4, (IFor l1 f items l3).
    cbn [app flat]. rewrite <- app_assoc, F. repeat split; auto. now constructor.
  - cbn [tags app] in E. destruct toks as [|[t1 l1] toks]; [discriminate|]. cbn [map t_inner] in E. injection E as -> E. rewrite <- app_assoc in E.
    destruct (place_list _ IH _ _ E) as (t2 & t3 & items & -> & E3 & P & F). cbn [app] in E3.
    destruct t3 as [|[t3 l3] t4]; [discriminate|]. cbn [map t_inner] in E3. injection E3 as -> E4.
    exists (LTok (TFun (test_fn c)) l1 :: t2 ++ [LTok (TFun (FEnd (test_name c) false)) l3]), t4, (IIf l1 c items l3).
    cbn [app flat]. rewrite <- app_assoc, F. repeat split; auto. now constructor.
  - cbn [tags app] in E. destruct toks as [|[t1 l1] toks]; [discriminate|]. cbn [map t_inner] in E. injection E as -> E. rewrite <- app_assoc in E.
    destruct (place_list _ IH1 _ _ E) as (t2 & t3 & items & -> & E3 & P & F). cbn [app] in E3.
    destruct t3 as [|[t3 l3] t4]; [discriminate|]. cbn [map t_inner] in E3. injection E3 as -> E4. rewrite <- app_assoc in E4.
    destruct (place_list _ IH2 _ _ E4) as (t5 & t6 & items' & -> & E6 & P' & F'). cbn [app] in E6.
    destruct t6 as [|[t6 l6] t7]; [discriminate|]. cbn [map t_inner] in E6. injection E6 as -> E7.
    exists (LTok (TFun (test_fn c)) l1 :: t2 ++ LTok (TFun FElse) l3 :: t5 ++ [LTok (TFun (FEnd (test_name c) false)) l6]), t7,
      (IIfElse l1 c items l3 items' l6).
    cbn [app flat]. rewrite <- app_assoc. cbn [app]. rewrite <- app_assoc, F, F'. repeat split; auto. now constructor.
Qed.
Lemma place_all l toks : map t_inner toks = flat_map tags l -> exists items, flat_map flat items = toks /\ Forall2 placed l items.
Proof.
  intros E. rewrite <- (app_nil_r (flat_map tags l)) in E.
  destruct (place_list l) with (toks := toks) (rest := @nil token) as (t1 & t2 & items & -> & E2 & P & F); [|exact E|].
  - apply Forall_forall. intros b _. apply place.
  - destruct t2; [|discriminate]. exists items. now rewrite app_nil_r.
Qed.
(** Every call of a plugin function, passed over or not, is of a function that acts as one. *)
Fixpoint all_act (b : block) : Prop :=
  match b with
  | BPlugin p => exists beh, acts p beh
  | BSection _ body | BFor _ body => fold_right (fun b P => all_act b /\ P) True body
  | BIf _ yes => fold_right (fun b P => (all_act b /\ named_calls b) /\ P) True yes
  | BIfElse _ yes no => fold_right (fun b P => (all_act b /\ named_calls b) /\ P) True yes /\ fold_right (fun b P => (all_act b /\ named_calls b) /\ P) True no
  | _ => True
  end.
Lemma fold_forall {A} (P : A -> Prop) l : fold_right (fun a Q => P a /\ Q) True l <-> Forall P l.
Proof.
  split.
  - induction l as [|a l IH]; [constructor|]. intros [H1 H2]. constructor; [exact H1|now apply IH].
  - induction 1; cbn; [exact I|now split].
Qed.
Lemma placed_calm b : forall i, placed b i -> named_calls b -> calm i.
Proof.
  induction b as [b S|p|label body IH|f body IH|c yes IH|c yes no IH1 IH2] using block_ind2; intros i H N; inversion H; subst;
    cbn [bare] in *; try contradiction; cbn [calm named_calls] in *; auto.
  match goal with F : Forall2 placed body items |- _ => clear H; revert items F end. intros items F. revert IH N.
  induction F as [|b0 i0 l0 items0 B0 F0 IHF]; intros IH N; [exact I|]. inversion IH; subst. destruct N as [N1 N2]. split; auto.
Qed.
Lemma placed_sane b : forall i, placed b i -> all_act b -> sane i.
Proof.
  assert (L : forall l, Forall (fun b => forall i, placed b i -> all_act b -> sane i) l -> forall items, Forall2 placed l items -> Forall all_act l -> all_sane items).
  { intros l H items F. induction F as [|b0 i l items B F IH]; intros A; [exact I|]. inversion H; subst. inversion A; subst. split; auto. }
  assert (C : forall l items, Forall2 placed l items -> Forall named_calls l -> all_calm items).
  { intros l items F. induction F as [|b0 i l items B F IH]; intros A; [exact I|]. inversion A; subst. split; [eapply placed_calm; eassumption|auto]. }
  assert (LC : forall l, Forall (fun b => forall i, placed b i -> all_act b -> sane i) l -> forall items, Forall2 placed l items ->
    fold_right (fun b P => (all_act b /\ named_calls b) /\ P) True l -> all_sane items /\ all_calm items).
  { intros l H items F A. apply (fold_forall (fun b => all_act b /\ named_calls b)) in A.
    split; [eapply L|eapply C]; try eassumption; (eapply Forall_impl; [|exact A]); cbn; tauto. }
  induction b as [b S|p|label body IH|f body IH|c yes IH|c yes no IH1 IH2] using block_ind2; intros i H A; inversion H; subst;
    cbn [bare] in *; try contradiction; cbn [all_act] in A.
  - match goal with T : tags b = _ |- _ => destruct b; try contradiction; cbn in T; injection T as T; cbn [sane]; rewrite <- T; reflexivity end.
  - destruct A as [beh A]. exact (acts_beh p beh A).
  - eapply L; [exact IH|eassumption|now apply (fold_forall all_act)].
  - eapply L; [exact IH|eassumption|now apply (fold_forall all_act)].
  - eapply LC; eassumption.
  - destruct A as [A1 A2]. split; [eapply LC; [exact IH1|eassumption|exact A1]|eapply LC; [exact IH2|eassumption|exact A2]].
Qed.
Lemma placed_all_sane l items : Forall2 placed l items -> Forall all_act l -> Forall sane items.
Proof. induction 1; intros A; inversion A; subst; constructor; [eapply placed_sane; eassumption|auto]. Qed.
Lemma placed_simple l items : Forall2 placed l items -> Forall simple l -> existsb is_block items = false.
Proof.
  induction 1 as [|b i l items P F IH]; intros S; [reflexivity|]. inversion S as [|? ? S1 S2]; subst. cbn [existsb]. rewrite (IH S2), orb_false_r.
  destruct P; try destruct S1; reflexivity.
Qed.
Lemma simple_act l : Forall simple l -> Forall (fun b => all_act b /\ named_calls b) l.
Proof.
  apply Forall_impl. intros b S. destruct b; try contradiction; try (split; exact I). destruct S as [beh [N A]]. split; [now exists beh|exact N].
Qed.

(** ** Printing *)
Scheme prints_mut := Minimality for prints Sort Prop with repeats_mut := Minimality for repeats Sort Prop.

Section Printing.
  Variable h : host.
  Variable site : node.
  Variable json_at : text -> value -> Prop.
  Variable posts_at : text -> list value -> Prop.
  Hypothesis json_ok : forall file j, json_at file j -> exists name b meta src, get_at_path site file = Some (NFile name b (PJson j) meta src).
  Hypothesis posts_ok : forall dir vs, posts_at dir vs -> exists name ch src, get_at_path site dir = Some (NDir name ch src) /\ posts ch vs.

  Lemma shows_leaf sc secs b o new t : shows (h_date h) json_at sc secs b o new -> bare b -> tags b = [t] ->
    leaf_effect h site sc secs t = Ok (o, new).
  Proof.
    intros H B T. destruct H; cbn in T; injection T as <-; cbn [leaf_effect]; try contradiction.
    - now rewrite (utf8_enc _ _ H).
    - apply value_get in H. unfold var_string. rewrite H. cbn [bind]. now rewrite (utf8_enc _ _ H0).
    - rewrite H. rewrite (value_text _ _ _ H0). cbn [bind]. rewrite H1. now rewrite (utf8_enc _ _ H2).
    - rewrite (value_text _ _ _ H). cbn [bind]. destruct (excerpt_spec n t0) as (c' & rest' & dots & R & -> & D1 & D2 & D3).
      assert (X := reads_unique _ _ _ _ _ _ R H0). subst c'. rewrite D2, (utf8_enc _ _ H1); [reflexivity|].
      destruct R as [R _], H0 as [H0 _]. intros ->. rewrite H0 in R. rewrite app_nil_r in R.
      apply (f_equal (@length N)) in R. rewrite app_length in R. cbn in R. tlia.
    - rewrite (value_text _ _ _ H). cbn [bind]. destruct (excerpt_spec n t0) as (c' & rest' & dots & R & -> & D1 & D2 & D3).
      assert (X := reads_unique _ _ _ _ _ _ R H0). subst c'. rewrite D3, app_nil_r, (utf8_enc _ _ H2); [reflexivity|exact H1|].
      destruct R as [R _]. rewrite <- (app_nil_r t0) in R at 1. now apply app_inv_head in R.
    - rewrite (value_text _ _ _ H). cbn [bind]. now rewrite (excerpt_wide _ _ H0 H1), (utf8_enc _ _ H2).
    - rewrite (value_text _ _ _ H). cbn [bind]. unfold minutes. rewrite (words_count _ _ H0), N.max_comm.
      rewrite (decimal_unique _ _ (show_N_decimal _) _ H1). now rewrite (utf8_enc _ _ H2).
    - destruct (json_ok _ _ H1) as (nm & b & m & s & ->). subst sc. cbn [hd]. now rewrite (proj2 (assoc_none x vs) H0).
    - now rewrite (proj2 (assoc_iff label secs b) H).
  Qed.
  Lemma shows_simple sc secs b o new : shows (h_date h) json_at sc secs b o new -> bare b \/ exists p, b = BPlugin p.
  Proof. intros H. destruct H; try (left; exact I). right. now eexists. Qed.
  Lemma shows_block vs r secs b o new i : shows (h_date h) json_at (vs :: r) secs b o new -> placed b i ->
    render false h site i (RState (vs :: r) secs) = RDone o (RState ((vs ++ new) :: r) secs).
  Proof.
    intros Sh P. destruct (shows_simple _ _ _ _ _ Sh) as [B|[p ->]].
    - destruct P as [b t _ T| | | | | ]; try destruct B. cbn [render t_inner rs_scopes rs_secs]. now rewrite (shows_leaf _ _ _ _ _ _ Sh B T).
    - inversion P; subst; [contradiction|]. inversion Sh; subst. cbn [render rs_scopes rs_secs]. rewrite (beh_of_eq p beh) by assumption.
      match goal with E : forall l, beh l _ _ = _ |- _ => now rewrite E end.
  Qed.
  Lemma shows_acts sc secs b o new : shows (h_date h) json_at sc secs b o new -> all_act b.
  Proof. intros H. destruct H; try exact I. now exists beh. Qed.
  Lemma prints_act l sc secs o new secs' : prints (h_date h) json_at posts_at l sc secs o new secs' -> Forall all_act l.
  Proof.
    assert (G : forall l, Forall all_act l -> Forall named_calls l -> fold_right (fun b P => (all_act b /\ named_calls b) /\ P) True l).
    { intros l0 A B. apply (fold_forall (fun b => all_act b /\ named_calls b)). apply Forall_forall. intros b I. split; [exact (proj1 (Forall_forall _ _) A b I)|exact (proj1 (Forall_forall _ _) B b I)]. }
    assert (K : forall l, Forall simple l -> fold_right (fun b P => (all_act b /\ named_calls b) /\ P) True l) by (intros l0 X; apply (fold_forall (fun b => all_act b /\ named_calls b)); now apply simple_act).
    apply (prints_mut (h_date h) json_at posts_at (fun l _ _ _ _ _ => Forall all_act l) (fun body _ vs _ _ _ _ => vs <> [] -> Forall all_act body)); intros.
    - constructor.
    - constructor; [eapply shows_acts; eassumption|assumption].
    - constructor; [now apply (fold_forall all_act)|assumption].
    - constructor; [apply (fold_forall all_act); match goal with X : _ <> [] -> _ |- _ => apply X; discriminate end|assumption].
    - constructor; [now apply G|assumption].
    - constructor; [now apply K|assumption].
    - constructor; [split; [now apply G|now apply K]|assumption].
    - constructor; [split; [now apply K|now apply G]|assumption].
    - contradiction.
    - assumption.
  Qed.
  Lemma over_values f sc vs : loop_over json_at posts_at f sc vs -> for_values (World h site []) f (frames sc) = Ok vs.
  Proof.
    intros [vs' T P|vs' T J|vs' T V]; unfold for_values; rewrite T; cbn [w_input].
    - destruct (posts_ok _ _ P) as (n & ch & s & -> & Q). now apply posts_values.
    - destruct (json_ok _ _ J) as (n & b & m & s & ->). reflexivity.
    - apply value_get in V. now rewrite V.
  Qed.

  Definition rendered_as (l : list block) sc secs o new secs' : Prop := forall items, Forall2 placed l items ->
    render_all false h site items (RState sc secs) = RDone o (RState (bind_vars new sc) secs').
  Lemma bind_nil sc : bind_vars [] sc = sc.
  Proof. destruct sc as [|vs r]; [reflexivity|]. cbn. now rewrite app_nil_r. Qed.
  Lemma rendered_scope vs l sc secs o new secs' items : rendered_as l (vs :: sc) secs o new secs' -> Forall2 placed l items ->
    rscope vs (rseq (render false h site) items) (RState sc secs) = RDone o (RState sc secs').
  Proof. intros R P. unfold rscope. cbn [rs_scopes rs_secs]. unfold rendered_as, render_all in R. now rewrite (R items P). Qed.

  Lemma prints_rendered l sc secs o new secs' : prints (h_date h) json_at posts_at l sc secs o new secs' -> rendered_as l sc secs o new secs'.
  Proof.
    apply (prints_mut (h_date h) json_at posts_at rendered_as
      (fun body x vs sc secs o secs' => forall items, Forall2 placed body items ->
         rseq (fun v => rscope [(x, v)] (rseq (render false h site) items)) vs (RState sc secs) = RDone o (RState sc secs'))).
    - intros sc0 secs0 items P. inversion P; subst. cbn. now rewrite bind_nil.
    - intros b l0 vs r secs0 o0 new0 o' new' secs0' Sh _ IH items P. inversion P as [|? i ? items' P1 P2]; subst.
      unfold render_all. cbn [rseq]. rewrite (shows_block _ _ _ _ _ _ _ Sh P1). cbn [rthen].
      unfold rendered_as, render_all in IH. rewrite (IH _ P2). cbn [bind_vars]. now rewrite app_assoc.
    - intros label body l0 sc0 secs0 o0 new0 secs1 o' new' secs0' _ IH1 _ IH2 items P. inversion P as [|? i ? items' P1 P2]; subst.
      inversion P1; subst; [contradiction|]. unfold render_all. cbn [rseq render].
      rewrite (rendered_scope _ _ _ _ _ _ _ _ IH1) by assumption. cbn [rthen rs_scopes rs_secs]. unfold rendered_as, render_all in IH2.
      now rewrite (IH2 _ P2).
    - intros f body l0 sc0 secs0 vs v out o0 secs1 o' new' secs0' Ov Vi _ IH1 _ IH2 items P. inversion P as [|? i ? items' P1 P2]; subst.
      inversion P1; subst; [contradiction|]. unfold render_all. cbn [rseq render rs_scopes]. rewrite (over_values _ _ _ Ov).
      assert (X : select f vs = v :: out) by (eapply visits_unique; [apply select_visits|exact Vi]). rewrite X.
      match goal with F : Forall2 placed body ?it |- _ => assert (Q := IH1 it F) end. cbn [rseq] in Q. rewrite Q. cbn [rthen]. unfold rendered_as, render_all in IH2. now rewrite (IH2 _ P2).
    - intros c yes l0 sc0 secs0 o0 new0 secs1 o' new' secs0' D _ _ IH1 _ IH2 items P. inversion P as [|? i ? items' P1 P2]; subst.
      inversion P1; subst; [contradiction|]. unfold render_all. cbn [rseq render rs_scopes]. rewrite (decided_holds _ _ _ D).
      rewrite (rendered_scope _ _ _ _ _ _ _ _ IH1) by assumption. cbn [rthen]. unfold rendered_as, render_all in IH2. now rewrite (IH2 _ P2).
    - intros c yes l0 sc0 secs0 o' new' secs0' D Si _ IH2 items P. inversion P as [|? i ? items' P1 P2]; subst.
      inversion P1; subst; [contradiction|]. unfold render_all. cbn [rseq render rs_scopes]. rewrite (decided_holds _ _ _ D).
      rewrite (placed_simple yes _) by assumption. cbn [negb andb rthen]. unfold rendered_as, render_all in IH2. now rewrite (IH2 _ P2).
    - intros c yes no l0 sc0 secs0 o0 new0 secs1 o' new' secs0' D _ Si _ IH1 _ IH2 items P. inversion P as [|? i ? items' P1 P2]; subst.
      inversion P1; subst; [contradiction|]. unfold render_all. cbn [rseq render rs_scopes]. rewrite (decided_holds _ _ _ D).
      rewrite (rendered_scope _ _ _ _ _ _ _ _ IH1) by assumption. rewrite (placed_simple no _) by assumption. cbn [negb andb rthen]. rewrite app_nil_r.
      unfold rendered_as, render_all in IH2. now rewrite (IH2 _ P2).
    - intros c yes no l0 sc0 secs0 o0 new0 secs1 o' new' secs0' D Si _ _ IH1 _ IH2 items P. inversion P as [|? i ? items' P1 P2]; subst.
      inversion P1; subst; [contradiction|]. unfold render_all. cbn [rseq render rs_scopes]. rewrite (decided_holds _ _ _ D).
      rewrite (placed_simple yes _) by assumption. cbn [negb andb].
      rewrite (rendered_scope _ _ _ _ _ _ _ _ IH1) by assumption. cbn [rthen]. unfold rendered_as, render_all in IH2. now rewrite (IH2 _ P2).
    - reflexivity.
    - intros body x v vs sc0 secs0 o0 new0 secs1 o' secs0' _ IH1 _ IH2 items P. cbn [rseq].
      rewrite (rendered_scope _ _ _ _ _ _ _ _ IH1 P). cbn [rthen]. now rewrite (IH2 _ P).
  Qed.

  (** What the interpreter makes of the tags. *)
  Lemma prints_run l f secs o new secs' toks : prints (h_date h) json_at posts_at l [fr_vars f] secs o new secs' ->
    map t_inner toks = flat_map tags l ->
    exists i vs, Interp.run (World h site toks) (Scope 0 [f] secs) = Ok (Scope i [Frame (fr_name f) vs (fr_out f ++ o)] secs').
  Proof.
    intros P E. destruct (place_all l toks E) as (items & <- & Pl). assert (R := prints_rendered _ _ _ _ _ _ P items Pl).
    assert (B := block_structure h site items f [] secs (placed_all_sane _ _ Pl (prints_act _ _ _ _ _ _ P))). cbn zeta in B. cbn [map] in B. rewrite R in B.
    rewrite (ideal_all h site items (RState [fr_vars f] secs)) in B by (rewrite R; discriminate). rewrite R in B.
    destruct B as (nw & _ & B); [discriminate|]. cbn [rs_secs] in B. eexists. eexists. exact B.
  Qed.
End Printing.

(** ** The content directory and the loaded tree *)
Inductive stands (R : text -> bytes -> node -> Prop) : text -> ent -> node -> Prop :=
| sn_file name b n : R name b n -> n_name n = name -> is_file n = true -> stands R name (EFile b) n
| sn_dir name l ch src : Forall2 (fun e => stands R (fst e) (snd e)) l ch -> stands R name (EDir l) (NDir name ch src).
Definition loaded_as (h : host) (ps : list plugin) (name : text) (b : bytes) (n : node) : Prop :=
  exists p, create_from_file h ps true p name b = Ok n.
Definition ready_as (h : host) (ps : list plugin) (pr : processor) (name : text) (b : bytes) (n' : node) : Prop :=
  exists n, loaded_as h ps name b n /\ preprocess pr n = Ok n'.

Lemma create_stands h ps e : forall p name n, create_from h ps true p name e = Ok n -> stands (loaded_as h ps) name e n.
Proof.
  induction e as [b| |l IH] using ent_ind2; intros p name n; cbn [create_from]; try discriminate.
  - intros E. destruct (create_file_kind _ _ _ _ _ _ E) as (pc & -> & _). constructor; [now exists p|reflexivity|reflexivity].
  - destruct (map_res _ l) as [ch|x|q|] eqn:M; cbn [bind]; try discriminate. intros E; injection E as <-. constructor.
    revert M. apply Forall2_from. revert IH. apply Forall_impl. intros [k e'] IH y. cbn [fst snd] in *. apply IH.
Qed.
Lemma file_preprocess pr n n' : is_file n = true -> preprocess pr n = Ok n' -> n_name n' = n_name n /\ is_file n' = true.
Proof.
  destruct n as [name b p meta src|]; [|discriminate]. intros _. cbn [preprocess].
  destruct p as [t|m|v|c| |]; try (intros E; injection E as <-; split; reflexivity).
  destruct (map_err E_Process _) as [m'|x|q|]; cbn [bind]; try discriminate. intros E; injection E as <-; split; reflexivity.
Qed.
Lemma preprocess_stands h ps pr e : forall name n n', stands (loaded_as h ps) name e n -> preprocess pr n = Ok n' ->
  stands (ready_as h ps pr) name e n'.
Proof.
  induction e as [b| |l IH] using ent_ind2; intros name n n' S E; inversion S as [? ? ? R N F|? ? ch src F]; subst.
  - destruct (file_preprocess _ _ _ F E) as [N' F']. constructor; [now exists n|exact N'|exact F'].
  - cbn [preprocess] in E. destruct (map_res _ ch) as [ch'|x|q|] eqn:M; cbn [bind] in E; try discriminate. injection E as <-. constructor.
    apply map_res_ok in M. clear S. revert ch' M. induction F as [|[k e] c l ch S F IHF]; intros ch' M; inversion M as [|? c' ? ch'' Ec M2]; subst; [constructor|].
    inversion IH as [|? ? I1 I2]; subst. constructor; [now apply (I1 k c)|now apply IHF].
Qed.
Lemma stands_name R name e n : stands R name e n -> n_name n = name.
Proof. intros [? ? ? _ N _|? ? ? ? _]; [exact N|reflexivity]. Qed.

(** A path through a tree; [anc] is the list of the entries of the directories passed. *)
Inductive spine : node -> list (list node) -> list text -> list (list node) -> node -> Prop :=
| sp_here n anc : spine n anc [] anc n
| sp_child name ch src c ks anc anc' f : In c ch -> spine c (ch :: anc) ks anc' f ->
    spine (NDir name ch src) anc (n_name c :: ks) anc' f.

Lemma spine_app n anc ks1 anc1 d ks2 anc2 f : spine n anc ks1 anc1 d -> spine d anc1 ks2 anc2 f -> spine n anc (ks1 ++ ks2) anc2 f.
Proof. intros H. revert anc2 f. induction H as [n anc|name ch src c ks anc anc' f I H IH]; intros anc2 g K; [exact K|]. cbn. econstructor; [exact I|now apply IH]. Qed.
Lemma spine_at n anc ks anc' f : spine n anc ks anc' f -> at_names n ks f.
Proof. induction 1; econstructor; eassumption. Qed.
Lemma same_child ch c c' : NoDup (map n_name ch) -> In c ch -> In c' ch -> n_name c = n_name c' -> c = c'.
Proof. intros D I I' E. assert (A := find_child_in _ _ D I). assert (B := find_child_in _ _ D I'). rewrite E in A. congruence. Qed.
Lemma spine_unique n anc ks a1 f1 : spine n anc ks a1 f1 -> distinct n -> forall a2 f2, spine n anc ks a2 f2 -> a1 = a2 /\ f1 = f2.
Proof.
  induction 1 as [n anc|name ch src c ks anc anc' f I H IH]; intros D a2 f2 K.
  - inversion K; now subst.
  - inversion K as [|? ? ? c' ? ? ? ? I' K']; subst. inversion D as [|? ? ? D1 D2]; subst.
    assert (c' = c) by (eapply same_child; eassumption). subst c'. apply IH; [|exact K'].
    rewrite Forall_forall in D2. now apply D2.
Qed.
Lemma spine_distinct n anc ks a f : spine n anc ks a f -> distinct n -> Forall (fun ch => NoDup (map n_name ch)) anc ->
  distinct f /\ Forall (fun ch => NoDup (map n_name ch)) a.
Proof.
  induction 1 as [n anc|name ch src c ks anc anc' f I H IH]; intros D A; [now split|]. inversion D as [|? ? ? D1 D2]; subst.
  apply IH; [rewrite Forall_forall in D2; now apply D2|now constructor].
Qed.
Lemma stands_at R e ks e' : ent_at e ks e' -> forall name n anc, stands R name e n ->
  exists anc' n' name', spine n anc ks anc' n' /\ stands R name' e' n'.
Proof.
  induction 1 as [e|l k e ks e' I H IH]; intros name n anc S.
  - exists anc, n, name. split; [constructor|exact S].
  - inversion S as [|? ? ch src F]; subst. destruct (Forall2_in_l _ _ _ _ F I) as (c & Ic & Sc). cbn [fst snd] in Sc.
    destruct (IH k c (ch :: anc) Sc) as (anc' & n' & nm & Sp & Sn). exists anc', n', nm. split; [|exact Sn].
    rewrite <- (stands_name _ _ _ _ Sc). now econstructor.
Qed.
Lemma ent_at_dir e ks name f : ent_at e (ks ++ [name]) f -> exists l, ent_at e ks (EDir l) /\ In (name, f) l.
Proof.
  revert e. induction ks as [|k ks IH]; intros e H; cbn [app] in H; inversion H as [|l ? e1 ? ? I K]; subst.
  - inversion K; subst. exists l. split; [constructor|exact I].
  - destruct (IH _ K) as (l' & A & B). exists l'. split; [econstructor; eassumption|exact B].
Qed.
Lemma ent_at_app e ks1 d ks2 f : ent_at e ks1 d -> ent_at d ks2 f -> ent_at e (ks1 ++ ks2) f.
Proof. induction 1 as [e|l k e ks e' I H IH]; intros K; [exact K|]. cbn. econstructor; [exact I|now apply IH]. Qed.
Lemma stands_dir R e ks l : ent_at e ks (EDir l) -> forall name n anc, stands R name e n ->
  exists anc' nm ch src, spine n anc ks anc' (NDir nm ch src) /\ Forall2 (fun e => stands R (fst e) (snd e)) l ch.
Proof.
  intros H name n anc S. destruct (stands_at _ _ _ _ H name n anc S) as (anc' & n' & nm & Sp & Sn).
  inversion Sn as [|? ? ch src F]; subst. now exists anc', nm, ch, src.
Qed.
Lemma stands_file R e ks name b : ent_at e (ks ++ [name]) (EFile b) -> forall nm n anc, stands R nm e n ->
  exists anc' d ch src c, spine n anc ks anc' (NDir d ch src) /\ In c ch /\ R name b c /\ n_name c = name /\ is_file c = true.
Proof.
  intros H nm n anc S. destruct (ent_at_dir _ _ _ _ H) as (l & A & I). destruct (stands_dir _ _ _ _ A nm n anc S) as (anc' & d & ch & src & Sp & F).
  destruct (Forall2_in_l _ _ _ _ F I) as (c & Ic & Sc). cbn [fst snd] in Sc. inversion Sc as [? ? ? Rc Nc Fc|]; subst.
  now exists anc', d, ch, src, c.
Qed.
(** What is in the tree is in the directory. *)
Lemma spine_ent R n anc ks anc' f : spine n anc ks anc' f -> forall name e, stands R name e n -> exists e', ent_at e ks e'.
Proof.
  induction 1 as [n anc|nm ch src c ks anc anc' f I H IH]; intros name e S; [exists e; constructor|].
  inversion S as [? ? ? _ _ F|? l ? ? F]; subst; [discriminate|].
  assert (X : exists ke, In ke l /\ stands R (fst ke) (snd ke) c).
  { clear -F I. induction F as [|ke c' l ch S F IH]; [destruct I|]. destruct I as [->|I]; [exists ke; split; [now left|exact S]|].
    destruct (IH I) as (ke' & A & B). exists ke'. split; [now right|exact B]. }
  destruct X as ([k e1] & I1 & S1). cbn [fst snd] in S1. destruct (IH _ _ S1) as [e' E]. exists e'.
  rewrite (stands_name _ _ _ _ S1). econstructor; eassumption.
Qed.

(** ** Paths *)
Lemma path_get site p ks n : distinct site -> path_of p ks -> at_names site ks n -> get_at_path site p = Some n.
Proof. intros D (hd & tl & E & F & N & P) A. apply path_resolves; [exact D|]. now exists hd, tl, ks. Qed.

(** ** The kinds of files *)
Lemma ext_of name e : has_ext name e -> extension name = Some e.
Proof. apply extension_spec. Qed.
Lemma created_html h ps name b n t l : loaded_as h ps name b n -> has_ext name (lit "html") -> utf8_text b t ->
  written (h_ext h) (map (fun p => (pl_name p, pl_fns p)) ps) t l ->
  exists toks src, n = NFile name b (PHtml toks) None src /\ map t_inner toks = flat_map tags l.
Proof.
  intros (p & E) X U W. unfold create_from_file in E. rewrite (ext_of _ _ X), text_eqb_refl in E.
  rewrite (proj2 (decoding b t) U) in E. cbn [ok_or bind] in E.
  destruct (proj2 (parse_means (h_ext h) (fns ps) p t (flat_map tags l)) W) as (toks & P & M).
  rewrite P in E. cbn [map_err bind] in E. injection E as <-. now exists toks, p.
Qed.
Lemma created_json h ps name b n t j : loaded_as h ps name b n -> has_ext name (lit "json") -> utf8_text b t -> h_json h t = Some j ->
  exists src, n = NFile name b (PJson j) None src.
Proof.
  intros (p & E) X U J. unfold create_from_file in E. rewrite (ext_of _ _ X) in E.
  change (text_eqb (lit "json") (lit "html")) with false in E. change (text_eqb (lit "json") (lit "md")) with false in E.
  change (text_eqb (lit "json") (lit "json")) with true in E. cbv iota in E.
  rewrite (proj2 (decoding b t) U) in E. cbn [ok_or bind] in E. rewrite J in E. cbn [ok_or bind] in E. injection E as <-. now exists p.
Qed.
Lemma created_md h ps name b n t fm body l : loaded_as h ps name b n -> has_ext name (lit "md") -> utf8_text b t -> md_parts t fm body ->
  written (h_ext h) (map (fun p => (pl_name p, pl_fns p)) ps) body l ->
  exists toks src, n = NFile name b (PMarkdown (Markdown fm toks body None)) None src /\ map t_inner toks = flat_map tags l.
Proof.
  intros (p & E) X U MP W. unfold create_from_file in E. rewrite (ext_of _ _ X) in E.
  change (text_eqb (lit "md") (lit "html")) with false in E. change (text_eqb (lit "md") (lit "md")) with true in E. cbv iota in E.
  rewrite (proj2 (decoding b t) U) in E. cbn [ok_or bind] in E.
  destruct (proj2 (parse_means (h_ext h) (fns ps) p body (flat_map tags l)) W) as (toks & P & M).
  assert (Q : parse_markdown (h_ext h) (fns ps) p t = Ok (Markdown fm toks body None)).
  { destruct MP as [(NO & -> & ls & TL & ->)|(O & fs & d & ls & TL & F2 & ND & DD & ->)].
    - rewrite (markdown_none _ _ _ _ _ NO TL). unfold md_result. now rewrite P.
    - rewrite (markdown_front _ _ _ _ _ fs fm d ls O TL eq_refl F2 ND DD). unfold md_result. now rewrite P. }
  rewrite Q in E. cbn [map_err bind] in E. injection E as <-. now exists toks, p.
Qed.
Lemma set_field_key k x l l' : set_field k x l l' -> set_key k x l = l'.
Proof.
  intros [l0 N|l1 y l2 N].
  - induction l0 as [|[k' v] l0 IH]; [reflexivity|]. cbn [set_key app]. cbn in N. destruct (text_eqb k' k) eqn:E; [apply text_eqb_eq in E; subst; exfalso; auto|].
    f_equal. apply IH. auto.
  - induction l1 as [|[k' v] l1 IH]; cbn [set_key app]; [now rewrite text_eqb_refl|]. cbn in N. destruct (text_eqb k' k) eqn:E; [apply text_eqb_eq in E; subst; exfalso; auto|].
    f_equal. apply IH. auto.
Qed.

(** ** The site *)
Lemma base_page osenv mode : base_frame (build_vars osenv mode) = Frame (lit "base") (page_vars osenv mode) [].
Proof. reflexivity. Qed.
Lemma json_name_md name : has_ext name (lit "json") -> ~ has_ext name (lit "md").
Proof. intros A B. discriminate (has_ext_unique _ _ _ A B). Qed.

Lemma stands_distinct R e : forall name n, stands R name e n -> ent_distinct e -> distinct n.
Proof.
  induction e as [b| |l IH] using ent_ind2; intros name n S E; inversion S as [? ? ? _ _ F|? ? ch src F]; subst.
  - destruct n; [constructor|discriminate].
  - inversion E as [| |? E1 E2]; subst. constructor.
    + replace (map n_name ch) with (map fst l); [exact E1|]. clear -F. induction F as [|ke c l ch S F IH]; [reflexivity|]. cbn. rewrite IH. now rewrite (stands_name _ _ _ _ S).
    + clear S E1 E. revert E2 IH. induction F as [|ke c l ch S F IHF]; intros E2 IH; [constructor|]. inversion E2; inversion IH; subst.
      constructor; [eapply H5; eassumption|]. now apply IHF.
Qed.

Section Site.
  Variable h : host.
  Variable ps : list plugin.
  Variable meta : bool.
  Variable osenv : list (text * text).
  Variable mode : text.
  Variable content : ent.
  Variable input input' : node.
  Variable top : text.
  Hypothesis D : ent_distinct content.
  Hypothesis Hin : stands (loaded_as h ps) top content input.
  Let vars := build_vars osenv mode.
  Let pr0 := build_pr h meta vars input.
  Hypothesis Hpre : preprocess pr0 input = Ok input'.
  Let pr1 := build_pr h meta vars input'.

  Let Hin' : stands (ready_as h ps pr0) top content input'.
  Proof. exact (preprocess_stands _ _ _ _ _ _ _ Hin Hpre). Qed.
  Let D0 : distinct input. Proof. exact (stands_distinct _ _ _ _ Hin D). Qed.
  Let D1 : distinct input'. Proof. exact (stands_distinct _ _ _ _ Hin' D). Qed.

  Lemma json_found R site file j : stands R top content site ->
    (forall name b n t, R name b n -> has_ext name (lit "json") -> utf8_text b t -> h_json h t = Some j -> exists src, n = NFile name b (PJson j) None src) ->
    site_json h content file j -> exists name b m src, get_at_path site file = Some (NFile name b (PJson j) m src).
  Proof.
    intros S K (ks & name & b & t & P & A & X & U & J).
    destruct (stands_file _ _ _ _ _ A _ _ [] S) as (anc & d & ch & src & c & Sp & I & Rc & Nc & Fc).
    destruct (K _ _ _ _ Rc X U J) as (s & ->). exists name, b, None, s. eapply path_get; [exact (stands_distinct _ _ _ _ S D)|exact P|].
    eapply spine_at, spine_app; [exact Sp|]. cbn [n_name] in Nc. change name with (n_name (NFile name b (PJson j) None s)) at 1. econstructor; [exact I|constructor].
  Qed.
  Lemma json_input file j : site_json h content file j -> exists name b m src, get_at_path input file = Some (NFile name b (PJson j) m src).
  Proof. apply (json_found _ _ _ _ Hin). intros. eapply created_json; eassumption. Qed.
  Lemma json_input' file j : site_json h content file j -> exists name b m src, get_at_path input' file = Some (NFile name b (PJson j) m src).
  Proof.
    apply (json_found _ _ _ _ Hin'). intros name b n t (n0 & L & P) X U J. destruct (created_json _ _ _ _ _ _ _ L X U J) as (src & ->).
    cbn in P. injection P as <-. now exists src.
  Qed.

  Let page_base := page_vars osenv mode.
  Lemma post_ready name b n v : ready_as h ps pr0 name b n -> has_ext name (lit "md") -> post h ps page_base content b v ->
    exists m src, n = NFile name b (PMarkdown m) None src /\ forall E, md_to_value (E := E) m = Ok v.
  Proof.
    intros (n0 & L & P) X (t & fm & body & l & o & new & secs & out & l1 & l2 & U & MP & W & Pr & Uo & S1 & S2 & ->).
    destruct (created_md _ _ _ _ _ _ _ _ _ L X U MP W) as (toks & src & -> & M).
    cbn [preprocess] in P. unfold preprocess_markdown in P. cbn [pr0 build_pr pr_base md_tokens] in P. unfold phase in P. cbn [pr0 build_pr pr_input pr_host] in P.
    destruct (prints_run h input (site_json h content) (fun _ _ => False) json_input ltac:(contradiction) l (base_frame vars) [] o new secs toks Pr M)
      as (i & vs & R).
    rewrite R in P. cbn [bind sc_stack] in P. change (is_base (Frame (fr_name (base_frame vars)) vs (fr_out (base_frame vars) ++ o))) with true in P.
    cbv iota in P. cbn [fr_out base_frame add_var new_frame app] in P. rewrite (proj2 (decoding o out) Uo) in P. cbn [map_err bind md_front md_tokens md_string pr_host] in P.
    injection P as <-. eexists. exists src. split; [reflexivity|]. intros E. unfold md_to_value. cbn [md_html md_front md_string].
    unfold front_value. rewrite (set_field_key _ _ _ _ S1), (set_field_key _ _ _ _ S2). reflexivity.
  Qed.
  Lemma not_post name e n m : stands (ready_as h ps pr0) name e n -> n_parsed n = PMarkdown m -> has_ext name (lit "md") /\ exists b, e = EFile b.
  Proof.
    intros S Q. inversion S as [? b ? (n0 & (p & L) & P) N F|]; subst; [|discriminate]. split; [|now exists b].
    destruct (create_file_kind _ _ _ _ _ _ L) as (pc & -> & K). cbn [n_name].
    assert (N' := file_preprocess pr0 (NFile (n_name n) b pc None p) n eq_refl P).
    assert (X : exists m0, pc = PMarkdown m0).
    { cbn [preprocess] in P. destruct pc; try (injection P as P; rewrite <- P in Q; discriminate Q). now eexists. }
    destruct X as [m0 ->]. destruct K as [(_ & t & K)|[(K & _)|[(_ & v & K)|[(? & ? & ? & _ & _ & _ & _ & _ & _ & K)|(K & _)]]]]; try discriminate. exact K.
  Qed.
  Lemma posts_found dir vs : site_posts h ps page_base content dir vs ->
    exists name ch src, get_at_path input' dir = Some (NDir name ch src) /\ posts ch vs.
  Proof.
    intros (ks & l & P & A & E). destruct (stands_dir _ _ _ _ A _ _ [] Hin') as (anc & nm & ch & src & Sp & F).
    exists nm, ch, src. split; [eapply path_get; [exact D1|exact P|eapply spine_at; exact Sp]|].
    clear P A Sp. revert ch F. induction E as [|name b v l vs X Po E IH|name e l vs N E IH]; intros ch F; inversion F as [|? c ? ch' S F2]; subst.
    - constructor.
    - cbn [fst snd] in S. inversion S as [? ? ? R Nm Fl|]; subst. destruct (post_ready _ _ _ _ R X Po) as (m & s & -> & V).
      apply po_post with m; [reflexivity|apply V|now apply IH].
    - cbn [fst snd] in S. apply po_other; [|now apply IH]. intros m Q. apply N. eapply not_post; eassumption.
  Qed.

  Lemma says_run l vs secs o secs' toks f : says h ps page_base content l vs secs o secs' -> map t_inner toks = flat_map tags l -> fr_vars f = vs ->
    exists i vs', Interp.run (World h input' toks) (Scope 0 [f] secs) = Ok (Scope i [Frame (fr_name f) vs' (fr_out f ++ o)] secs').
  Proof.
    intros (new & P) M <-. eapply (prints_run h input' (site_json h content) (site_posts h ps page_base content) json_input' posts_found); eassumption.
  Qed.

  (** ** Templates *)
  Lemma template_down name t : forall ks d anc d2 anc2, spine d anc ks anc2 d2 ->
    (forall a c nm ch src anc', ks = a ++ c -> a <> [] -> spine d anc a anc' (NDir nm ch src) -> ~ In name (map n_name ch)) ->
    forall nm1 ch1 src1 nm2 ch2 src2, d = NDir nm1 ch1 src1 -> d2 = NDir nm2 ch2 src2 ->
    template_of name (ch1 :: anc) t -> template_of name (ch2 :: anc2) t.
  Proof.
    induction ks as [|k ks IH]; intros d anc d2 anc2 Sp N nm1 ch1 src1 nm2 ch2 src2 -> -> T; inversion Sp as [|? ? ? c ? ? ? ? I S2]; subst.
    - exact T.
    -
      assert (X : exists nmc chc srcc, c = NDir nmc chc srcc) by (destruct c; [inversion S2|now repeat eexists]).
      destruct X as (nmc & chc & srcc & ->). cbn [n_name] in *.
      eapply IH; [exact S2| |reflexivity|reflexivity|].
      + intros a c nm ch src anc' -> NE Sp'. apply (N (nmc :: a) c nm ch src anc'); [reflexivity|discriminate|].
        change nmc with (n_name (NDir nmc chc srcc)) at 1. econstructor; eassumption.
      + apply to_up; [|exact T]. apply (N [nmc] ks nmc chc srcc (ch1 :: anc)); [reflexivity|discriminate|].
        change nmc with (n_name (NDir nmc chc srcc)) at 1. econstructor; [exact I|constructor].
  Qed.
  Lemma spine_split n anc ks1 ks2 anc2 f : spine n anc (ks1 ++ ks2) anc2 f -> exists anc1 d, spine n anc ks1 anc1 d /\ spine d anc1 ks2 anc2 f.
  Proof.
    revert n anc. induction ks1 as [|k ks1 IH]; intros n anc H; [exists anc, n; split; [constructor|exact H]|].
    cbn [app] in H. inversion H as [|? ch src c ? ? ? ? I K]; subst. destruct (IH _ _ K) as (anc1 & d & A & B). exists anc1, d. split; [econstructor; eassumption|exact B].
  Qed.
  Lemma template_found name ks l anc nm ch src : template_at h ps content name ks l -> has_ext name (lit "html") ->
    spine input' [] ks anc (NDir nm ch src) ->
    exists toks, template_of name (ch :: anc) (Some toks) /\ map t_inner toks = flat_map tags l.
  Proof.
    intros (ks1 & ks2 & b & t & -> & A & N & U & W) X Sp.
    destruct (stands_file _ _ _ _ _ A _ _ [] Hin') as (anc1 & d1 & ch1 & src1 & c & Sp1 & I & (n0 & L & P) & Nc & _).
    destruct (spine_split _ _ _ _ _ _ Sp) as (anc1' & d1' & Sp1' & Sp2).
    destruct (spine_unique _ _ _ _ _ Sp1 D1 _ _ Sp1') as [<- <-].
    destruct (created_html _ _ _ _ _ _ _ L X U W) as (toks & s & -> & M). cbn in P. injection P as <-. exists toks. split; [|exact M].
    eapply template_down; [exact Sp2| |reflexivity|reflexivity|].
    - intros a c nm' ch' src' anc' -> NE Sa Hn. apply in_map_iff in Hn. destruct Hn as (x & Hx & Ix).
      assert (Sx : spine input' [] (ks1 ++ a ++ [name]) (ch' :: anc') x).
      { eapply spine_app; [exact Sp1|]. eapply spine_app; [exact Sa|]. rewrite <- Hx. econstructor; [exact Ix|constructor]. }
      destruct (spine_ent _ _ _ _ _ _ Sx _ _ Hin') as [e Ee]. exact (N a c e eq_refl NE Ee).
    - change (Some toks) with (html_of (NFile name b (PHtml toks) None s)). constructor; [exact I|reflexivity].
  Qed.

  (** ** The output *)
  Lemma at_names_app a ks b ks' c : at_names a ks b -> at_names b ks' c -> at_names a (ks ++ ks') c.
  Proof. induction 1 as [n|nm ch src x ks n I H IH]; intros K; [exact K|]. cbn. econstructor; [exact I|now apply IH]. Qed.
  Lemma mirror_down R n anc ks anc' d : spine n anc ks anc' d -> is_dir d = true -> forall out, mirror R anc n out ->
    exists d', at_names out ks d' /\ mirror R anc' d d'.
  Proof.
    induction 1 as [n anc|nm ch src c ks anc anc' f I H IH]; intros F out M; [exists out; split; [constructor|exact M]|].
    inversion M as [|? ? ? ? ch' F2]; subst. destruct (Forall2_in_l _ _ _ _ F2 I) as (c' & Ic & Mc).
    destruct (IH F _ Mc) as (d' & A & B). exists d'. split; [|exact B].
    assert (X : n_name c' = n_name c).
    { inversion Mc as [? ? ? ? ? ? ? K|]; subst; [|reflexivity]. inversion H; subst; discriminate. }
    rewrite <- X. now econstructor.
  Qed.
  Lemma mirror_page R n ks anc nm ch src c out : spine n [] ks anc (NDir nm ch src) -> In c ch -> is_file c = true -> mirror R [] n out ->
    exists c', R (ch :: anc) c c' /\ at_names out (ks ++ [n_name c']) c'.
  Proof.
    intros Sp I F M. destruct (mirror_down _ _ _ _ _ _ Sp eq_refl _ M) as (d' & A & B). inversion B as [|? ? ? ? ch' F2]; subst.
    destruct (Forall2_in_l _ _ _ _ F2 I) as (c' & Ic & Mc). destruct c as [name b p m s|]; [|discriminate].
    inversion Mc as [? ? ? ? ? ? ? K|]; subst. exists c'. split; [exact K|]. eapply at_names_app; [exact A|]. econstructor; [exact Ic|constructor].
  Qed.

  Lemma root_ext : has_ext (lit "root.html") (lit "html").
  Proof. exists (lit "root"). repeat split; [discriminate|]. intros X. cbn in X. intuition discriminate. Qed.
  Lemma md_ext : has_ext (lit "md.html") (lit "html").
  Proof. exists (lit "md"). repeat split; [discriminate|]. intros X. cbn in X. intuition discriminate. Qed.

  Lemma two_runs src toks root first o1 secs o secs' i vs i' vs' :
    is_base first = true ->
    Interp.run (World h input' toks) (Scope 0 [first] []) = Ok (Scope i [Frame (fr_name first) vs o1] secs) ->
    Interp.run (World h input' root) (Scope 0 [base_frame vars] secs) = Ok (Scope i' [Frame (lit "base") vs' o] secs') ->
    two_phases pr1 src toks root first (base_frame vars) = Ok o.
  Proof.
    intros B R1 R2. unfold two_phases, phase. cbn [pr1 build_pr pr_input pr_host]. rewrite R1. cbn [bind sc_stack sc_secs].
    unfold is_base in *. cbn [fr_name] in *. rewrite B. rewrite R2. reflexivity.
  Qed.

  Theorem published_output out : mirror (publishes pr1 vars) [] input' out -> forall ks name o,
    published h ps page_base content ks name o -> exists m src, at_names out (ks ++ [name]) (NFile name o PNone m src).
  Proof.
    intros M ks name o (fname & fb & A & H).
    destruct H as [name b t page root o1 secs o secs' X NT U W TR S1 S2|stem b v page root o1 secs o secs' NE Po TM TR S1 S2|name b C].
    - destruct (stands_file _ _ _ _ _ A _ _ [] Hin') as (anc & d & ch & src & c & Sp & I & (n0 & L & P) & Nc & Fc).
      destruct (created_html _ _ _ _ _ _ _ L X U W) as (toks & s & -> & Mt). cbn in P. injection P as <-.
      destruct (mirror_page _ _ _ _ _ _ _ _ _ Sp I eq_refl M) as (c' & Pu & At).
      destruct (template_found _ _ _ _ _ _ _ TR root_ext Sp) as (rt & Tr & Mr).
      destruct (spine_distinct _ _ _ _ _ Sp D1 (Forall_nil _)) as [Dd Da]. inversion Dd as [|? ? ? Nd _]; subst.
      assert (DA : Forall (fun ch => NoDup (map n_name ch)) (ch :: anc)) by now constructor.
      destruct (says_run _ _ _ _ _ toks (base_frame vars) S1 Mt eq_refl) as (i & vs & R1).
      destruct (says_run _ _ _ _ _ rt (base_frame vars) S2 Mr eq_refl) as (i' & vs' & R2).
      assert (Q := two_runs s toks rt (base_frame vars) o1 secs o secs' i vs i' vs' eq_refl R1 R2).
      inversion Pu as [f p root' md' po b' name' m' Pg T1 T2 RP PC N1 N2|? ? c0 ? ? ? ? ? ? NT'|? ? ? ? ? ? Q']; subst.
      + inversion Pg; subst; rewrite (template_unique _ _ _ DA T1 _ Tr) in *. cbn [render_page] in RP. unfold process_html in RP. cbn [ev_root ok_or bind pr1 build_pr pr_base] in RP.
        fold pr1 in RP. cbn [n_source] in RP. rewrite Q in RP. cbn [bind] in RP. injection RP as <-. cbn in PC. injection PC as <-.
        rewrite (N1 _ eq_refl) in *. cbn [n_name] in *. eexists. eexists. exact At.
      + exfalso. destruct Q' as [Q'|[[w Q']|[Q'|Q']]]; try discriminate. now apply NT.
    - destruct (stands_file _ _ _ _ _ A _ _ [] Hin') as (anc & d & ch & src & c & Sp & I & R & Nc & Fc).
      assert (X : has_ext (stem ++ lit ".md") (lit "md")).
      { exists stem. repeat split; [exact NE|]. intros Y. cbn in Y. intuition discriminate. }
      destruct (post_ready _ _ _ _ R X Po) as (m & s & -> & V).
      destruct (mirror_page _ _ _ _ _ _ _ _ _ Sp I eq_refl M) as (c' & Pu & At).
      destruct (template_found _ _ _ _ _ _ _ TR root_ext Sp) as (rt & Tr & Mr).
      destruct (template_found _ _ _ _ _ _ _ TM md_ext Sp) as (mt & Tm & Mm).
      destruct (spine_distinct _ _ _ _ _ Sp D1 (Forall_nil _)) as [Dd Da]. inversion Dd as [|? ? ? Nd _]; subst.
      assert (DA : Forall (fun ch => NoDup (map n_name ch)) (ch :: anc)) by now constructor.
      destruct (says_run _ _ _ _ _ mt (add_var (lit "self") v (base_frame vars)) S1 Mm eq_refl) as (i & vs & R1).
      destruct (says_run _ _ _ _ _ rt (base_frame vars) S2 Mr eq_refl) as (i' & vs' & R2).
      assert (Q := two_runs s mt rt (add_var (lit "self") v (base_frame vars)) o1 secs o secs' i vs i' vs' eq_refl R1 R2).
      inversion Pu as [f p root' md' po b' name' m' Pg T1 T2 RP PC N1 N2|? ? c0 ? ? ? ? ? ? NT'|? ? ? ? ? ? Q']; subst.
      + inversion Pg; subst; rewrite (template_unique _ _ _ DA T1 _ Tr), (template_unique _ _ _ DA T2 _ Tm) in *. cbn [render_page] in RP.
        unfold process_markdown in RP. cbn [ev_root ev_md ok_or bind pr1 build_pr pr_base] in RP.
        fold pr1 in RP. cbn [n_source] in RP. rewrite (V _) in RP. cbn [bind] in RP. rewrite Q in RP. cbn [bind] in RP.
        destruct (strip_suffix (lit ".md") (stem ++ lit ".md")) as [st|] eqn:St; [|discriminate].
        injection RP as <-. cbn in PC. injection PC as <-.
        destruct (N2 _ _ eq_refl) as (stem' & E1 & ->). cbn [n_name] in *. apply app_inv_tail in E1. subst stem'. eexists. eexists. exact At.
      + exfalso. destruct Q' as [Q'|[[w Q']|[Q'|Q']]]; try discriminate. destruct Q' as [Q'|Q']; rewrite Q' in X; discriminate (has_ext_unique _ _ _ X ltac:(first [exact root_ext|exact md_ext])).
    - destruct (stands_file _ _ _ _ _ A _ _ [] Hin') as (anc & d & ch & src & c & Sp & I & (n0 & (p & L) & P) & Nc & Fc).
      destruct (mirror_page _ _ _ _ _ _ _ _ _ Sp I Fc M) as (c' & Pu & At).
      destruct (create_file_kind _ _ _ _ _ _ L) as (pc & -> & K).
      assert (Y : exists pc', c = NFile name b pc' None p /\ (is_template name \/ (exists v, pc' = PJson v) \/ pc' = PNone)).
      { destruct K as [(X & t & ->)|[(X & m & -> & _)|[(X & v & ->)|[(e & np & cc & X & X1 & X2 & X3 & I1 & I2 & ->)|(-> & K)]]]].
        - cbn in P. injection P as <-. eexists. split; [reflexivity|]. destruct C as [C|[C|(C & _)]]; [now left| |contradiction].
          discriminate (has_ext_unique _ _ _ X C).
        - exfalso. destruct C as [C|[C|(_ & C & _)]]; [|discriminate (has_ext_unique _ _ _ X C)|contradiction].
          destruct C as [C|C]; rewrite C in X; discriminate (has_ext_unique _ _ _ X ltac:(first [exact root_ext|exact md_ext])).
        - cbn in P. injection P as <-. eexists. split; [reflexivity|]. right; left. now eexists.
        - exfalso. destruct C as [C|[C|(_ & _ & C)]].
          + destruct C as [C|C]; rewrite C in X; [apply X1; exact (has_ext_unique _ _ _ X root_ext)|apply X1; exact (has_ext_unique _ _ _ X md_ext)].
          + apply X3. exact (has_ext_unique _ _ _ X C).
          + exact (C e np X I1 I2).
        - cbn in P. injection P as <-. eexists. split; [reflexivity|]. now right; right. }
      destruct Y as (pc' & -> & Y).
      inversion Pu as [f pg root' md' po b' name' m' Pg T1 T2 RP PC N1 N2|? ? c0 ? ? ? ? ? ? NT'|? ? ? ? ? ? Q']; subst.
      + exfalso. inversion Pg; subst; destruct Y as [Y|[[w Y]|Y]]; try discriminate; contradiction.
      + exfalso. destruct Y as [Y|[[w Y]|Y]]; try discriminate; contradiction.
      + cbn [n_name] in At. eexists. eexists. exact At.
  Qed.

  (** ** Every page can be built *)
  Lemma file_built e ks anc nm ch src c name b name' o : spine input' [] ks anc (NDir nm ch src) -> In c ch -> ready_as h ps pr0 name b c ->
    page_of_file h ps page_base content ks name b name' o -> in_force vars (ch :: anc) e ->
    exists m s, build_node pr1 e c = Ok (NFile name' o PNone m s).
  Proof.
    intros Sp I R Pf (_ & FR & FM).
    destruct (spine_distinct _ _ _ _ _ Sp D1 (Forall_nil _)) as [Dd Da]. inversion Dd as [|? ? ? Nd _]; subst.
    assert (DA : Forall (fun ch => NoDup (map n_name ch)) (ch :: anc)) by now constructor.
    destruct Pf as [name b t page root o1 secs o secs' X NT U W TR S1 S2|stem b v page root o1 secs o secs' NE Po TM TR S1 S2|name b C].
    - destruct R as (n0 & L & P). destruct (created_html _ _ _ _ _ _ _ L X U W) as (toks & s & -> & Mt). cbn in P. injection P as <-.
      destruct (template_found _ _ _ _ _ _ _ TR root_ext Sp) as (rt & Tr & Mr).
      destruct (says_run _ _ _ _ _ toks (base_frame vars) S1 Mt eq_refl) as (i & vs & R1).
      destruct (says_run _ _ _ _ _ rt (base_frame vars) S2 Mr eq_refl) as (i' & vs' & R2).
      assert (Q := two_runs s toks rt (base_frame vars) o1 secs o secs' i vs i' vs' eq_refl R1 R2).
      cbn [build_node]. unfold process_file. destruct (is_template_name name) eqn:IT; [apply is_template_spec in IT; contradiction|]. unfold process_html.
      rewrite (template_unique _ _ _ DA FR _ Tr). cbn [ok_or bind pr1 build_pr pr_base]. fold pr1. rewrite Q. cbn [bind map_err]. now do 2 eexists.
    - assert (X : has_ext (stem ++ lit ".md") (lit "md")).
      { exists stem. repeat split; [exact NE|]. intros Y. cbn in Y. intuition discriminate. }
      destruct (post_ready _ _ _ _ R X Po) as (m & s & -> & V).
      destruct (template_found _ _ _ _ _ _ _ TR root_ext Sp) as (rt & Tr & Mr).
      destruct (template_found _ _ _ _ _ _ _ TM md_ext Sp) as (mt & Tm & Mm).
      destruct (says_run _ _ _ _ _ mt (add_var (lit "self") v (base_frame vars)) S1 Mm eq_refl) as (i & vs & R1).
      destruct (says_run _ _ _ _ _ rt (base_frame vars) S2 Mr eq_refl) as (i' & vs' & R2).
      assert (Q := two_runs s mt rt (add_var (lit "self") v (base_frame vars)) o1 secs o secs' i vs i' vs' eq_refl R1 R2).
      cbn [build_node]. unfold process_file. destruct (is_template_name _) eqn:IT.
      { apply is_template_spec in IT. destruct IT as [IT|IT]; rewrite IT in X; discriminate (has_ext_unique _ _ _ X ltac:(first [exact root_ext|exact md_ext])). }
      unfold process_markdown.
      rewrite (template_unique _ _ _ DA FR _ Tr), (template_unique _ _ _ DA FM _ Tm). cbn [ok_or bind pr1 build_pr pr_base]. fold pr1.
      rewrite (V _). cbn [bind]. rewrite Q. cbn [bind].
      rewrite (proj2 (strip_suffix_spec (lit ".md") (stem ++ lit ".md") stem) eq_refl). cbn [map_err bind]. now do 2 eexists.
    - destruct R as (n0 & (p & L) & P). destruct (create_file_kind _ _ _ _ _ _ L) as (pc & -> & K).
      assert (Y : exists pc', c = NFile name b pc' None p /\ (is_template name \/ (exists v, pc' = PJson v) \/ pc' = PNone)).
      { destruct K as [(X & t & ->)|[(X & m & -> & _)|[(X & v & ->)|[(e' & np & cc & X & X1 & X2 & X3 & I1 & I2 & ->)|(-> & K)]]]].
        - cbn in P. injection P as <-. eexists. split; [reflexivity|]. destruct C as [C|[C|(C & _)]]; [now left| |contradiction].
          discriminate (has_ext_unique _ _ _ X C).
        - exfalso. destruct C as [C|[C|(_ & C & _)]]; [|discriminate (has_ext_unique _ _ _ X C)|contradiction].
          destruct C as [C|C]; rewrite C in X; discriminate (has_ext_unique _ _ _ X ltac:(first [exact root_ext|exact md_ext])).
        - cbn in P. injection P as <-. eexists. split; [reflexivity|]. right; left. now eexists.
        - exfalso. destruct C as [C|[C|(_ & _ & C)]].
          + destruct C as [C|C]; rewrite C in X; [apply X1; exact (has_ext_unique _ _ _ X root_ext)|apply X1; exact (has_ext_unique _ _ _ X md_ext)].
          + apply X3. exact (has_ext_unique _ _ _ X C).
          + exact (C e' np X I1 I2).
        - cbn in P. injection P as <-. eexists. split; [reflexivity|]. now right; right. }
      destruct Y as (pc' & -> & Y). cbn [build_node]. unfold process_file.
      destruct Y as [Y|[[v ->]| ->]]; [apply is_template_spec in Y; rewrite Y; now do 2 eexists| |]; destruct (is_template_name name); now do 2 eexists.
  Qed.
  Lemma spine_stands R n anc ks anc' f : spine n anc ks anc' f -> forall name e, stands R name e n -> exists name' e', ent_at e ks e' /\ stands R name' e' f.
  Proof.
    induction 1 as [n anc|nm ch src c ks anc anc' f I H IH]; intros name e S; [exists name, e; split; [constructor|exact S]|].
    inversion S as [? ? ? _ _ F|? l ? ? F]; subst; [discriminate|].
    assert (X : exists ke, In ke l /\ stands R (fst ke) (snd ke) c).
    { clear -F I. induction F as [|ke c' l ch S F IH]; [destruct I|]. destruct I as [->|I]; [exists ke; split; [now left|exact S]|].
      destruct (IH I) as (ke' & A & B). exists ke'. split; [now right|exact B]. }
    destruct X as ([k e1] & I1 & S1). cbn [fst snd] in S1. destruct (IH _ _ S1) as (name' & e' & E & Q). exists name', e'. split; [|exact Q].
    rewrite (stands_name _ _ _ _ S1). econstructor; eassumption.
  Qed.
  Hypothesis Order : forall ks name b, ent_at content (ks ++ [name]) (EFile b) -> in_order h ps page_base content ks name b.
  Lemma children_built n : forall ks anc nm ch src e, n = NDir nm ch src -> spine input' [] ks anc n -> in_force vars (ch :: anc) e ->
    exists ch', map_res (build_node pr1 e) ch = Ok ch'.
  Proof.
    induction n as [n1 n2 n3 n4 n5|nm0 ch0 src0 IH] using node_ind2; intros ks anc nm ch src2 e E Sp F; [discriminate|]. injection E as -> -> ->.
    apply map_res_all. intros c I. assert (Sc : spine input' [] (ks ++ [n_name c]) (ch :: anc) c).
    { eapply spine_app; [exact Sp|]. econstructor; [exact I|constructor]. }
    destruct c as [name b pc m s|name ch' s'] eqn:Ec.
    - destruct (spine_stands _ _ _ _ _ _ Sc _ _ Hin') as (name' & e' & A & S). inversion S as [? b' ? R N Fc|]; subst. cbn [n_name] in *.
      destruct (Order _ _ _ A) as ((name' & o & Pf) & _). destruct (file_built e ks anc nm ch src2 _ name b' name' o Sp I R Pf F) as (m' & s' & ->). now eexists.
    - cbn [build_node]. rewrite Forall_forall in IH. destruct (IH _ I (ks ++ [name]) (ch :: anc) name ch' s' (env_update e ch') eq_refl Sc) as (l & ->).
      { now apply in_force_update. }
      cbn [bind]. now eexists.
  Qed.
  (** Every file of the output is the page of a file. *)
  Lemma children_from n : forall ks anc nm ch src e ch', n = NDir nm ch src -> spine input' [] ks anc n -> in_force vars (ch :: anc) e ->
    map_res (build_node pr1 e) ch = Ok ch' -> forall c' ks' k b pc m s, In c' ch' -> at_names c' ks' (NFile k b pc m s) ->
    exists dirs, n_name c' :: ks' = dirs ++ [k] /\ pc = PNone /\ published h ps page_base content (ks ++ dirs) k b.
  Proof.
    induction n as [n1 n2 n3 n4 n5|nm0 ch0 src0 IH] using node_ind2; intros ks anc nm ch src2 e ch' E Sp F M c' ks' k b pc m s I' A; [discriminate|]. injection E as -> -> ->.
    apply map_res_ok in M. destruct (Forall2_in_r _ _ _ _ M I') as (c & I & Ec). assert (Sc : spine input' [] (ks ++ [n_name c]) (ch :: anc) c).
    { eapply spine_app; [exact Sp|]. econstructor; [exact I|constructor]. }
    destruct c as [name b0 pc0 m0 s0|name ch2 s0] eqn:Eq.
    - destruct (spine_stands _ _ _ _ _ _ Sc _ _ Hin') as (name' & e' & Ae & S). inversion S as [? b' ? R N Fc|]; subst. cbn [n_name] in *.
      destruct (Order _ _ _ Ae) as ((name' & o & Pf) & _).
      destruct (file_built e ks anc nm ch src2 _ name b' name' o Sp I R Pf F) as (m' & s' & Q).
      rewrite Q in Ec. injection Ec as <-. inversion A; subst. exists []. split; [reflexivity|]. split; [reflexivity|]. rewrite app_nil_r. now exists name, b'.
    - cbn [build_node] in Ec. destruct (map_res (build_node pr1 (env_update e ch2)) ch2) as [ch2'| | |] eqn:M2; cbn [bind] in Ec; try discriminate.
      injection Ec as <-. inversion A as [|? ? ? x ? ? Ix Ax]; subst. rewrite Forall_forall in IH.
      destruct (IH _ I (ks ++ [name]) (ch :: anc) name ch2 s0 (env_update e ch2) ch2' eq_refl Sc (in_force_update _ _ _ _ F) M2 _ _ _ _ _ _ _ Ix Ax) as (dirs & E1 & E2 & P).
      exists (name :: dirs). cbn [n_name app]. rewrite E1. split; [reflexivity|]. split; [exact E2|]. now rewrite <- app_assoc in P.
  Qed.
End Site.

Lemma site_published h osenv mode d st content out : snd (build h osenv mode d st) = Ok tt -> st_output (fst (build h osenv mode d st)) = Some out ->
  sd_ent d = Some content -> ent_distinct content -> forall ks name o,
  published h (st_plugins st) (page_vars osenv mode) content ks name o ->
  exists m src, at_names out (ks ++ [name]) (NFile name o PNone m src).
Proof.
  unfold build. intros B O E Di. rewrite E in *. unfold node_new in *. destruct content as [|l|]; try discriminate.
  destruct (create_from h (st_plugins st) true (sd_path d) (sd_name d) (EDir l)) as [input|x|q|] eqn:C; try discriminate.
  fold (build_pr h (cf_meta (st_config st)) (build_vars osenv mode) input) in *.
  destruct (preprocess _ input) as [input'|x|q|] eqn:P; try discriminate.
  assert (T : build_tree h (cf_meta (st_config st)) (build_vars osenv mode) input = Ok (input', out)).
  { unfold build_tree in *. fold (build_pr h (cf_meta (st_config st)) (build_vars osenv mode) input) in *. rewrite P in *. cbn [bind] in *.
    destruct (n_children input'); [|discriminate].
    match goal with |- bind ?x _ = _ => destruct x as [out'|x'|q|] end; cbn [bind] in *; try discriminate. cbn in O. injection O as <-. reflexivity. }
  clear B O. unfold build_tree in T. fold (build_pr h (cf_meta (st_config st)) (build_vars osenv mode) input) in T. rewrite P in T. cbn [bind] in T.
  destruct input' as [|nm ch src]; [discriminate|]. cbn [n_children] in T.
  match type of T with bind ?x _ = _ => destruct x as [out'|x'|q|] eqn:BN end; cbn [bind] in T; try discriminate. injection T as ->.
  apply build_top in BN.
  exact (published_output h (st_plugins st) (cf_meta (st_config st)) osenv mode (EDir l) input (NDir nm ch src) (sd_name d) Di (create_stands _ _ _ _ _ _ C) P out BN).
Qed.

(** ** A site in order is built *)
Lemma file_created h ps content vars ks name b p : in_order h ps vars content ks name b -> exists n, create_from_file h ps true p name b = Ok n.
Proof.
  intros ((name' & o & Pf) & T & J).
  assert (HT : has_ext name (lit "html") -> (exists t l, utf8_text b t /\ written (h_ext h) (map (fun p => (pl_name p, pl_fns p)) ps) t l) ->
    exists n, create_from_file h ps true p name b = Ok n).
  { intros X (t & l & U & W). unfold create_from_file. rewrite (ext_of _ _ X), text_eqb_refl, (proj2 (decoding b t) U). cbn [ok_or bind].
    destruct (proj2 (parse_means (h_ext h) (fns ps) p t (flat_map tags l)) W) as (toks & -> & _). cbn [map_err bind]. now eexists. }
  destruct Pf as [name b t page root o1 secs o secs' X NT U W TR S1 S2|stem b v page root o1 secs o secs' NE Po TM TR S1 S2|name b C].
  - apply HT; [exact X|]. now exists t, page.
  - assert (X : has_ext (stem ++ lit ".md") (lit "md")).
    { exists stem. repeat split; [exact NE|]. intros Y. cbn in Y. intuition discriminate. }
    destruct Po as (t & fm & body & l & o2 & new & secs2 & out & l1 & l2 & U & MP & W & _).
    unfold create_from_file. rewrite (ext_of _ _ X). change (text_eqb (lit "md") (lit "html")) with false. change (text_eqb (lit "md") (lit "md")) with true. cbv iota.
    rewrite (proj2 (decoding b t) U). cbn [ok_or bind].
    destruct (proj2 (parse_means (h_ext h) (fns ps) p body (flat_map tags l)) W) as (toks & P & M).
    assert (Q : parse_markdown (h_ext h) (fns ps) p t = Ok (Markdown fm toks body None)).
    { destruct MP as [(NO & -> & ls & TL & ->)|(O & fs & d & ls & TL & F2 & ND & DD & ->)].
      - rewrite (markdown_none _ _ _ _ _ NO TL). unfold md_result. now rewrite P.
      - rewrite (markdown_front _ _ _ _ _ fs fm d ls O TL eq_refl F2 ND DD). unfold md_result. now rewrite P. }
    rewrite Q. cbn [map_err bind]. now eexists.
  - destruct (extension name) as [e|] eqn:X; [|unfold create_from_file; rewrite X; now eexists]. apply extension_spec in X.
    destruct C as [C|C]; [apply HT; [destruct C as [-> | ->]; [exact root_ext|exact md_ext]|now apply T]|].
    unfold create_from_file. rewrite (ext_of _ _ X).
    destruct (text_eqb e (lit "html")) eqn:E1; [apply text_eqb_eq in E1; subst e; exfalso; destruct C as [C|(C & _)]; [discriminate (has_ext_unique _ _ _ X C)|contradiction]|].
    destruct (text_eqb e (lit "md")) eqn:E2; [apply text_eqb_eq in E2; subst e; exfalso; destruct C as [C|(_ & C & _)]; [discriminate (has_ext_unique _ _ _ X C)|contradiction]|].
    destruct (text_eqb e (lit "json")) eqn:E3.
    + apply text_eqb_eq in E3. subst e. destruct (J X) as (t & j & U & Hj). rewrite (proj2 (decoding b t) U). cbn [ok_or bind]. rewrite Hj. cbn [ok_or bind]. now eexists.
    + destruct C as [C|(_ & _ & C)]; [rewrite (has_ext_unique _ _ _ C X) in E3; rewrite text_eqb_refl in E3; discriminate|].
      unfold find_node_parser. destruct (find _ _) as [np|] eqn:Fi; [|now eexists]. exfalso. apply find_some in Fi. destruct Fi as [I Q].
      apply existsb_exists in Q. destruct Q as (e' & I' & Q). apply text_eqb_eq in Q. subst e'. exact (C e np X I I').
Qed.
Lemma tree_created h ps e : forall p name, (forall b, e = EFile b -> exists n, create_from_file h ps true p name b = Ok n) ->
  (forall ks nm b q, ent_at e (ks ++ [nm]) (EFile b) -> exists n, create_from_file h ps true q nm b = Ok n) -> (forall ks, ~ ent_at e ks EOther) ->
  exists n, create_from h ps true p name e = Ok n.
Proof.
  induction e as [b| |l IH] using ent_ind2; intros p name HF HI HO; cbn [create_from].
  - now apply HF.
  - destruct (HO []). constructor.
  - destruct (map_res_all (fun ne => create_from h ps true (p ++ [fst ne]) (fst ne) (snd ne)) l) as [ch ->]; [|cbn [bind]; now eexists].
    intros [k e] I. cbn [fst snd]. rewrite Forall_forall in IH. apply (IH _ I).
    + intros b Q. cbn in Q. subst e. apply (HI [] k b). econstructor; [exact I|constructor].
    + intros ks nm b q A. apply (HI (k :: ks) nm b q). cbn. econstructor; [exact I|exact A].
    + intros ks A. apply (HO (k :: ks)). econstructor; [exact I|exact A].
Qed.
Lemma tree_preprocessed h ps pr e : forall name n, stands (loaded_as h ps) name e n ->
  (forall b, e = EFile b -> has_ext name (lit "md") -> forall n, loaded_as h ps name b n -> exists n', preprocess pr n = Ok n') ->
  (forall ks nm b, ent_at e (ks ++ [nm]) (EFile b) -> has_ext nm (lit "md") -> forall n, loaded_as h ps nm b n -> exists n', preprocess pr n = Ok n') ->
  exists n', preprocess pr n = Ok n'.
Proof.
  induction e as [b| |l IH] using ent_ind2; intros name n S HF HI; inversion S as [? ? ? R N F|? ? ch src F]; subst.
  - destruct R as (p & L). destruct (create_file_kind _ _ _ _ _ _ L) as (pc & E & K).
    destruct K as [(X & t & ->)|[(X & m & -> & _)|[(X & v & ->)|[(e' & np & cc & _ & _ & _ & _ & _ & _ & ->)|(-> & K)]]]]; try (rewrite E; now eexists).
    apply (HF b eq_refl X). now exists p.
  - cbn [preprocess]. destruct (map_res_all (preprocess pr) ch) as [ch' ->]; [|cbn [bind]; now eexists].
    clear S. revert IH HI. induction F as [|[k e] c l ch Sc F IHF]; intros IH HI x I; [destruct I|]. inversion IH as [|? ? I1 I2]; subst. destruct I as [<-|I].
    + cbn [fst snd] in Sc. apply (I1 k c Sc).
      * intros b Q. cbn in Q. subst e. apply (HI [] k b). econstructor; [now left|constructor].
      * intros ks nm b A. apply (HI (k :: ks) nm b). cbn. econstructor; [now left|exact A].
    + apply IHF; [intros b Q; discriminate|exact I2| |exact I]. intros ks nm b A. apply (HI ks nm b).
      destruct ks as [|k' ks]; cbn [app] in *; inversion A; subst; (econstructor; [right; eassumption|assumption]).
Qed.
Lemma site_builds h osenv mode d st content : sd_ent d = Some content -> ent_distinct content ->
  site_in_order h (st_plugins st) (page_vars osenv mode) content -> snd (build h osenv mode d st) = Ok tt.
Proof.
  intros Sd Di ((l & ->) & NO & Or). unfold build. rewrite Sd. unfold node_new.
  destruct (tree_created h (st_plugins st) (EDir l) (sd_path d) (sd_name d)) as (input & Cr); [discriminate| |exact NO|].
  { intros ks nm b q A. eapply file_created. exact (Or _ _ _ A). }
  rewrite Cr. assert (Hin := create_stands _ _ _ _ _ _ Cr).
  fold (build_pr h (cf_meta (st_config st)) (build_vars osenv mode) input).
  set (pr0 := build_pr h (cf_meta (st_config st)) (build_vars osenv mode) input).
  destruct (tree_preprocessed h (st_plugins st) pr0 (EDir l) (sd_name d) input Hin) as (input' & Pre); [discriminate| |].
  { intros ks nm b A X n L. destruct (Or _ _ _ A) as ((name' & o & Pf) & _). remember nm as nm0 eqn:En. destruct Pf as [name b t page root o1 secs o secs' X' NT U W TR S1 S2|stem b v page root o1 secs o secs' NE Po TM TR S1 S2|name b C].
    - discriminate (has_ext_unique _ _ _ X X').
    - destruct Po as (t & fm & body & bl & o2 & new & secs2 & out & l1 & l2 & U & MP & W & Pr & Uo & _ & _ & _).
      destruct (created_md _ _ _ _ _ _ _ _ _ L X U MP W) as (toks & src & -> & M).
      cbn [preprocess]. unfold preprocess_markdown. cbn [pr0 build_pr pr_base md_tokens]. unfold phase. cbn [pr0 build_pr pr_input pr_host].
      destruct (prints_run h input (site_json h (EDir l)) (fun _ _ => False) (json_input h (st_plugins st) (EDir l) input (sd_name d) Di Hin) ltac:(contradiction) bl (base_frame (build_vars osenv mode)) [] o2 new secs2 toks Pr M)
        as (i & vs & R).
      rewrite R. cbn [bind sc_stack]. change (is_base (Frame (fr_name (base_frame (build_vars osenv mode))) vs (fr_out (base_frame (build_vars osenv mode)) ++ o2))) with true.
      cbv iota. cbn [fr_out base_frame add_var new_frame app]. rewrite (proj2 (decoding o2 out) Uo). cbn [map_err bind]. now eexists.
    - exfalso. destruct C as [C|[C|(_ & C & _)]]; [|discriminate (has_ext_unique _ _ _ X C)|contradiction].
      destruct C as [-> | ->]; discriminate (has_ext_unique _ _ _ X ltac:(first [exact root_ext|exact md_ext])). }
  rewrite Pre. unfold build_tree. fold (build_pr h (cf_meta (st_config st)) (build_vars osenv mode) input). fold pr0. rewrite Pre. cbn [bind].
  destruct input' as [name b pc m src|nm ch src].
  { exfalso. assert (S' := preprocess_stands _ _ _ _ _ _ _ Hin Pre). inversion S'. }
  cbn [n_children]. fold (build_pr h (cf_meta (st_config st)) (build_vars osenv mode) (NDir nm ch src)). cbn [build_node].
  destruct (children_built h (st_plugins st) (cf_meta (st_config st)) osenv mode (EDir l) input (NDir nm ch src) (sd_name d) Di Hin Pre Or
    (NDir nm ch src) [] [] nm ch src (env_update (env_update (Env (build_vars osenv mode) None None) ch) ch) eq_refl (sp_here _ _)) as (ch' & ->).
  { apply in_force_again, in_force_update. repeat split; constructor. }
  reflexivity.
Qed.

Lemma build_parts h osenv mode d st content out : snd (build h osenv mode d st) = Ok tt -> st_output (fst (build h osenv mode d st)) = Some out ->
  sd_ent d = Some content -> exists l input nm ch src ch', content = EDir l /\ stands (loaded_as h (st_plugins st)) (sd_name d) content input /\
    preprocess (build_pr h (cf_meta (st_config st)) (build_vars osenv mode) input) input = Ok (NDir nm ch src) /\
    map_res (build_node (build_pr h (cf_meta (st_config st)) (build_vars osenv mode) (NDir nm ch src))
      (env_update (env_update (Env (build_vars osenv mode) None None) ch) ch)) ch = Ok ch' /\ out = NDir nm ch' src.
Proof.
  unfold build. intros B O E. rewrite E in *. unfold node_new in *. destruct content as [|l|]; try discriminate.
  destruct (create_from h (st_plugins st) true (sd_path d) (sd_name d) (EDir l)) as [input|x|q|] eqn:C; try discriminate.
  fold (build_pr h (cf_meta (st_config st)) (build_vars osenv mode) input) in *.
  destruct (preprocess _ input) as [input'|x|q|] eqn:P; try discriminate.
  assert (T : build_tree h (cf_meta (st_config st)) (build_vars osenv mode) input = Ok (input', out)).
  { unfold build_tree in *. fold (build_pr h (cf_meta (st_config st)) (build_vars osenv mode) input) in *. rewrite P in *. cbn [bind] in *.
    destruct (n_children input'); [|discriminate].
    match goal with |- bind ?x _ = _ => destruct x as [out'|x'|q|] end; cbn [bind] in *; try discriminate. cbn in O. injection O as <-. reflexivity. }
  clear B O. unfold build_tree in T. fold (build_pr h (cf_meta (st_config st)) (build_vars osenv mode) input) in T. rewrite P in T. cbn [bind] in T.
  destruct input' as [|nm ch src]; [discriminate|]. cbn [n_children build_node] in T.
  match type of T with context [map_res ?f ch] => destruct (map_res f ch) as [ch'|x'|q|] eqn:BN end; cbn [bind] in T; try discriminate. injection T as <-.
  exists l, input, nm, ch, src, ch'. split; [reflexivity|]. split; [exact (create_stands _ _ _ _ _ _ C)|]. now repeat split.
Qed.
Lemma site_only h osenv mode d st content out : snd (build h osenv mode d st) = Ok tt -> st_output (fst (build h osenv mode d st)) = Some out ->
  sd_ent d = Some content -> ent_distinct content -> site_in_order h (st_plugins st) (page_vars osenv mode) content ->
  forall ks k b pc m s, at_names out (ks ++ [k]) (NFile k b pc m s) -> pc = PNone /\ published h (st_plugins st) (page_vars osenv mode) content ks k b.
Proof.
  intros B O E Di (_ & _ & Or) ks k b pc m s A. destruct (build_parts _ _ _ _ _ _ _ B O E) as (l & input & nm & ch & src & ch' & -> & Hin & Pre & M & ->).
  remember (ks ++ [k]) as kk eqn:Ek. inversion A as [|? ? ? c' ks' ? I A']; subst.
  assert (F : in_force (build_vars osenv mode) [ch] (env_update (env_update (Env (build_vars osenv mode) None None) ch) ch)).
  { apply in_force_again, in_force_update. repeat split; constructor. }
  destruct (children_from h (st_plugins st) (cf_meta (st_config st)) osenv mode (EDir l) input (NDir nm ch src) (sd_name d) Di Hin Pre Or
    (NDir nm ch src) [] [] nm ch src _ ch' eq_refl (sp_here _ _) F M c' ks' k b pc m s I A') as (dirs & E1 & E2 & P).
  split; [exact E2|]. cbn [app] in P. match goal with H : _ :: _ = ks ++ [k] |- _ => rewrite H in E1 end. apply app_inj_tail in E1. destruct E1 as [-> _]. exact P.
Qed.
Lemma site_files h osenv mode d st content out : snd (build h osenv mode d st) = Ok tt -> st_output (fst (build h osenv mode d st)) = Some out ->
  sd_ent d = Some content -> ent_distinct content -> site_in_order h (st_plugins st) (page_vars osenv mode) content ->
  forall ks k b, (exists pc m s, at_names out (ks ++ [k]) (NFile k b pc m s)) <-> published h (st_plugins st) (page_vars osenv mode) content ks k b.
Proof.
  intros B O E Di Or ks k b. split.
  - intros (pc & m & s & A). now apply (site_only _ _ _ _ _ _ _ B O E Di Or) in A.
  - intros P. destruct (site_published _ _ _ _ _ _ _ B O E Di _ _ _ P) as (m & s & A). now exists PNone, m, s.
Qed.
