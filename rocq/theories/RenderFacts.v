(** RenderFacts.v -- the interpreter follows the block structure (C20). *)

From Coq Require Import String List NArith ZArith Bool Lia.
From Verif Require Import Text TextFacts Utf8 Json Base Syntax Parse Tree Interp SpecScope InterpFacts ScopeFacts SpecRender.
Import ListNotations.

(** ** Induction on items *)
Section ItemInd.
  Variable P : item -> Prop.
  Hypothesis Hleaf : forall t, P (ILeaf t).
  Hypothesis Hplug : forall l p beh, P (IPlugin l p beh).
  Hypothesis Hsec : forall l a b body c l', Forall P body -> P (ISection l a b body c l').
  Hypothesis Hfor : forall l f body l', Forall P body -> P (IFor l f body l').
  Hypothesis Hif : forall l c yes l', Forall P yes -> P (IIf l c yes l').
  Hypothesis Hife : forall l c yes le no l', Forall P yes -> Forall P no -> P (IIfElse l c yes le no l').
  Fixpoint item_induct (i : item) : P i :=
    let all := fix all (l : list item) : Forall P l :=
      match l with [] => Forall_nil P | x :: l' => Forall_cons x (item_induct x) (all l') end in
    match i with
    | ILeaf t => Hleaf t
    | IPlugin l p beh => Hplug l p beh
    | ISection l a b body c l' => Hsec l a b body c l' (all body)
    | IFor l f body l' => Hfor l f body l' (all body)
    | IIf l c yes l' => Hif l c yes l' (all yes)
    | IIfElse l c yes le no l' => Hife l c yes le no l' (all yes) (all no)
    end.
End ItemInd.

(** Number of tokens processed at the level of an item, and nesting depth. *)
Definition lsum (f : item -> nat) (l : list item) : nat := fold_right (fun i n => f i + n) 0 l.
Definition lmax (f : item -> nat) (l : list item) : nat := fold_right (fun i n => Nat.max (f i) n) 1 l.
Fixpoint count (i : item) : nat :=
  match i with ISection _ _ _ body _ _ => 2 + lsum count body | _ => 1 end.
Fixpoint depth (i : item) : nat :=
  match i with
  | ILeaf _ | IPlugin _ _ _ => 1
  | ISection _ _ _ body _ _ => lmax depth body
  | IFor _ _ body _ | IIf _ _ body _ => S (lmax depth body)
  | IIfElse _ _ yes _ no _ => S (Nat.max (lmax depth yes) (lmax depth no))
  end.
Definition all_wf (l : list item) : Prop := fold_right (fun i P => well_formed i /\ P) True l.
Definition all_calm (l : list item) : Prop := fold_right (fun i P => calm i /\ P) True l.
Definition all_sane (l : list item) : Prop := fold_right (fun i P => sane i /\ P) True l.
Lemma wf_sane i : well_formed i -> sane i /\ calm i.
Proof.
  assert (L : forall l, Forall (fun i => well_formed i -> sane i /\ calm i) l -> all_wf l -> all_sane l /\ all_calm l).
  { intros l H. induction H as [|j l Hj Hl IH]; intros WF; [split; exact I|]. destruct WF as [W1 W2]. destruct (Hj W1), (IH W2). repeat split; assumption. }
  induction i using item_induct; intros WF.
  - split; [exact WF|exact I].
  - split; [exact (proj2 WF)|exact (proj1 WF)].
  - exact (L _ H WF).
  - split; [exact (proj1 (L _ H WF))|exact I].
  - split; [exact (L _ H WF)|exact I].
  - destruct WF as [W1 W2]. split; [exact (conj (L _ H W1) (L _ H0 W2))|exact I].
Qed.
Lemma wf_all_sane l : all_wf l -> all_sane l /\ all_calm l.
Proof. induction l as [|i l IH]; intros WF; [split; exact I|]. destruct WF as [W1 W2]. destruct (wf_sane i W1), (IH W2). repeat split; assumption. Qed.

Lemma lmax_cons f a l : lmax f (a :: l) = Nat.max (f a) (lmax f l).
Proof. reflexivity. Qed.
Lemma lsum_cons f a l : lsum f (a :: l) = f a + lsum f l.
Proof. reflexivity. Qed.
Lemma lmax_pos f l : 1 <= lmax f l.
Proof. induction l; [cbn; lia|]. rewrite lmax_cons. lia. Qed.
Lemma lmax_in f l i : In i l -> f i <= lmax f l.
Proof. induction l as [|a l IH]; [cbn; tauto|]. rewrite lmax_cons. cbn [In]. intros [->|H]; [lia|]. specialize (IH H). lia. Qed.
Lemma all_wf_in l i : all_wf l -> In i l -> well_formed i.
Proof. induction l as [|a l IH]; cbn; [tauto|]. intros [H1 H2] [->|H]; [exact H1|]. now apply IH. Qed.

Lemma count_flat i : count i <= length (flat i).
Proof.
  assert (L : forall l, Forall (fun i => count i <= length (flat i)) l -> lsum count l <= length (flat_map flat l)).
  { intros l H. induction H as [|a l H1 H2 IH]; [cbn; lia|]. rewrite ?lsum_cons, ?lmax_cons. cbn [flat_map]. rewrite app_length. lia. }
  induction i using item_induct; cbn [count depth flat length]; try (cbn; lia).
  apply L in H. rewrite app_length. cbn. lia.
Qed.
Lemma lsum_flat l : lsum count l <= length (flat_map flat l).
Proof. induction l as [|a l IH]; [cbn; lia|]. rewrite ?lsum_cons, ?lmax_cons. cbn [flat_map]. rewrite app_length. assert (C := count_flat a). lia. Qed.
Lemma depth_flat i : depth i <= length (flat i).
Proof.
  assert (L : forall l, Forall (fun i => depth i <= length (flat i)) l -> lmax depth l <= S (length (flat_map flat l))).
  { intros l H. induction H as [|a l H1 H2 IH]; [cbn; lia|]. rewrite ?lsum_cons, ?lmax_cons. cbn [flat_map]. rewrite app_length. lia. }
  induction i using item_induct; cbn [count depth flat length]; try (cbn; lia).
  - apply L in H. rewrite app_length. cbn. lia.
  - apply L in H. rewrite app_length. cbn. lia.
  - apply L in H. rewrite app_length. cbn. lia.
  - apply L in H, H0. rewrite app_length. cbn. rewrite app_length. cbn. lia.
Qed.
Lemma lmax_flat l : lmax depth l <= S (length (flat_map flat l)).
Proof. induction l as [|a l IH]; [cbn; lia|]. rewrite ?lsum_cons, ?lmax_cons. cbn [flat_map]. rewrite app_length. assert (C := depth_flat a). lia. Qed.

(** ** Variables only depend on the variables of the frames *)
Lemma lookup_frames_vars k st : lookup_frames k (frames (map fr_vars st)) = lookup_frames k st.
Proof. induction st as [|f st IH]; cbn; [reflexivity|]. fold (frames (map fr_vars st)). now rewrite IH. Qed.
Lemma get_variable_vars v st : get_variable v (frames (map fr_vars st)) = get_variable v st.
Proof. unfold get_variable. destruct (split_char _ _). now rewrite lookup_frames_vars. Qed.
Lemma var_string_vars v st : var_string v (frames (map fr_vars st)) = var_string v st.
Proof. unfold var_string. now rewrite get_variable_vars. Qed.
Lemma eval_input_vars i st : eval_input i (frames (map fr_vars st)) = eval_input i st.
Proof. destruct i; cbn; [|reflexivity|reflexivity]. now rewrite get_variable_vars. Qed.
Lemma text_of_vars v s : text_of v (map fr_vars (sc_stack s)) = string_var v s.
Proof.
  unfold text_of, string_var. rewrite get_variable_vars. destruct (get_variable v (sc_stack s)) as [x|]; [|reflexivity].
  now destruct x.
Qed.
Lemma for_values_vars h site toks f st : for_values (World h site []) f (frames (map fr_vars st)) = for_values (World h site toks) f st.
Proof. unfold for_values. now rewrite get_variable_vars. Qed.

Definition upd (s : scope) (f : frame) (r : list frame) (o : bytes) (new : list (text * value)) : scope :=
  Scope (sc_idx s) (Frame (fr_name f) (fr_vars f ++ new) (fr_out f ++ o) :: r) (sc_secs s).

Lemma output_upd s f r o : sc_stack s = f :: r -> output o s = Ok (upd s f r o []).
Proof. intros S. unfold output, upd, set_stack, add_out. rewrite S. now rewrite app_nil_r. Qed.
Lemma emit_upd s f r o : sc_stack s = f :: r -> emit o s = Ok (upd s f r o []).
Proof. intros S. unfold emit, upd, set_stack, add_out. rewrite S. now rewrite app_nil_r. Qed.

Lemma leaf_exec n w t s f r : is_leaf (t_inner t) = true -> current w s = Some t -> sc_stack s = f :: r ->
  exec (S n) w t s =
  match leaf_effect (w_host w) (w_input w) (map fr_vars (sc_stack s)) (sc_secs s) (t_inner t) with
  | Ok (o, new) => Ok (upd s f r o new)
  | Err e => Err (tb (t_loc t) e)
  | Panic p => Panic p
  | OutOfFuel => OutOfFuel
  end.
Proof.
  intros L C S. cbn [exec]. destruct t as [ti l]; cbn [t_inner t_loc] in *. destruct ti as [x|g|v].
  - cbn. now apply emit_upd.
  - destruct g; try discriminate L; cbn [exec_fn leaf_effect]; unfold with_current; rewrite C; cbn [t_loc].
    + unfold exec_date. destruct (h_date (w_host w)) as [d|]; [|reflexivity]. rewrite text_of_vars.
      destruct (string_var var s) as [y|e|p|]; cbn; try reflexivity.
      destruct (d y fmt); [|reflexivity]. now rewrite (output_upd s f r _ S).
    + rewrite text_of_vars. destruct (string_var var s) as [y|e|p|]; cbn; try reflexivity. now rewrite (output_upd s f r _ S).
    + unfold exec_import. destruct (get_at_path (w_input w) file) as [[nm b pc meta src|]|]; try reflexivity.
      destruct pc; try reflexivity. rewrite S. cbn [map hd].
      destruct (assoc var (fr_vars f)); [reflexivity|]. cbn. unfold upd, set_stack, add_var. now rewrite app_nil_r.
    + unfold exec_insert. rewrite S. destruct (assoc label (sc_secs s)); [|reflexivity]. cbn.
      unfold upd, set_stack, add_out. now rewrite app_nil_r.
    + rewrite text_of_vars. destruct (string_var var s) as [y|e|p|]; cbn [map_err bind]; try reflexivity. now rewrite (output_upd s f r _ S).
  - cbn [leaf_effect]. rewrite var_string_vars. destruct (var_string v (sc_stack s)) as [y|e|p|]; cbn; try reflexivity.
    now rewrite (emit_upd s f r _ S).
Qed.

(** ** Drivers: the three loops of the interpreter *)
Definition plain_name (t : ltoken) : Prop := exists nm, token_fn_name t = Ok nm /\ is_name nm (lit "else") = false.
(** [c]: does the loop ask for names? *)
Definition drives_if (c : bool) (w : world) (n h : nat) (D : nat -> scope -> xres scope) : Prop :=
  forall k s t s1, length (sc_stack s) > h -> next_token w s = Some (t, s1) -> (c = true -> plain_name t) ->
  D (S k) s = let? s2 := exec n w t s1 in D k s2.
Definition drives (w : world) (n h : nat) (D : nat -> scope -> xres scope) : Prop :=
  forall k s t s1, length (sc_stack s) > h -> next_token w s = Some (t, s1) -> plain_name t ->
  D (S k) s = let? s2 := exec n w t s1 in D k s2.
Lemma drives_asks w n h D : drives w n h D -> drives_if true w n h D.
Proof. intros H k s t s1 L N P. exact (H k s t s1 L N (P eq_refl)). Qed.
Lemma drives_any w n : drives_if false w n 0 (fun k => run_all k n w).
Proof. intros k s t s1 _ N _. cbn. now rewrite N. Qed.
Lemma drives_body w n h eof : drives_if false w n h (run_block (exec n w) w h eof).
Proof.
  intros k s t s1 H N _. cbn [run_block]. destruct (Nat.leb_spec (length (sc_stack s)) h); [lia|]. now rewrite N.
Qed.

Lemma drives_all w n : drives w n 0 (fun k => run_all k n w).
Proof. intros k s t s1 _ N _. cbn. now rewrite N. Qed.
Lemma drives_block w n h eof : drives w n h (run_block (exec n w) w h eof).
Proof.
  intros k s t s1 H N _. cbn [run_block]. destruct (Nat.leb_spec (length (sc_stack s)) h); [lia|]. now rewrite N.
Qed.
Lemma drives_cond w n h eof : drives w n h (fun k => run_cond (exec n w) w h eof k true).
Proof.
  intros k s t s1 H N (nm & E & X). cbn [run_cond]. destruct (Nat.leb_spec (length (sc_stack s)) h); [lia|].
  rewrite N, E. cbn [bind orb]. now rewrite X.
Qed.

Definition agrees (X : xres scope) (r : rres) (K : bytes -> rstate -> Prop) : Prop :=
  match r with
  | RDone o st => K o st
  | RStop e => X = Err e
  | RPanic p => X = Panic p
  | ROdd => True
  end.

(** The state after an item that started with frame [f] on [r]. *)
Definition landed (D : scope -> xres scope) (X : xres scope) (f : frame) (r : list frame) (idx : nat) (o : bytes) (st : rstate) : Prop :=
  exists new, rs_scopes st = (fr_vars f ++ new) :: map fr_vars r /\
    X = D (Scope idx (Frame (fr_name f) (fr_vars f ++ new) (fr_out f ++ o) :: r) (rs_secs st)).

Definition goes (w : world) (i : item) : Prop :=
  forall c n D h pre post s st f r k,
  drives_if c w n h D -> (c = true -> calm i) -> depth i <= n -> w_toks w = pre ++ flat i ++ post -> sc_idx s = length pre ->
  sc_stack s = f :: r -> length r >= h -> rs_scopes st = map fr_vars (f :: r) -> rs_secs st = sc_secs s ->
  agrees (D (count i + k) s) (render false (w_host w) (w_input w) i st)
    (landed (D k) (D (count i + k) s) f r (length (pre ++ flat i))).
Definition goes_all (w : world) (l : list item) : Prop :=
  forall c n D h pre post s st f r k,
  drives_if c w n h D -> (c = true -> all_calm l) -> lmax depth l <= n -> w_toks w = pre ++ flat_map flat l ++ post -> sc_idx s = length pre ->
  sc_stack s = f :: r -> length r >= h -> rs_scopes st = map fr_vars (f :: r) -> rs_secs st = sc_secs s ->
  agrees (D (lsum count l + k) s) (rseq (render false (w_host w) (w_input w)) l st)
    (landed (D k) (D (lsum count l + k) s) f r (length (pre ++ flat_map flat l))).

Definition follows (w : world) (i : item) : Prop :=
  forall n D h pre post s st f r k,
  drives w n h D -> depth i <= n -> w_toks w = pre ++ flat i ++ post -> sc_idx s = length pre ->
  sc_stack s = f :: r -> length r >= h -> rs_scopes st = map fr_vars (f :: r) -> rs_secs st = sc_secs s ->
  agrees (D (count i + k) s) (render false (w_host w) (w_input w) i st)
    (landed (D k) (D (count i + k) s) f r (length (pre ++ flat i))).
Definition follows_all (w : world) (l : list item) : Prop :=
  forall n D h pre post s st f r k,
  drives w n h D -> lmax depth l <= n -> w_toks w = pre ++ flat_map flat l ++ post -> sc_idx s = length pre ->
  sc_stack s = f :: r -> length r >= h -> rs_scopes st = map fr_vars (f :: r) -> rs_secs st = sc_secs s ->
  agrees (D (lsum count l + k) s) (rseq (render false (w_host w) (w_input w)) l st)
    (landed (D k) (D (lsum count l + k) s) f r (length (pre ++ flat_map flat l))).

Lemma scope_eta s idx f r secs : sc_idx s = idx -> sc_stack s = f :: r -> sc_secs s = secs ->
  s = Scope idx (Frame (fr_name f) (fr_vars f ++ []) (fr_out f ++ []) :: r) secs.
Proof. intros <- E <-. rewrite !app_nil_r. destruct s as [a b c]; cbn in *. subst. now destruct f. Qed.

Lemma goes_list w l : Forall (fun i => sane i -> goes w i) l -> all_sane l -> goes_all w l.
Proof.
  intros H. induction H as [|i l Hi Hl IH]; intros WF c0 n D h pre post s st f r k HD HC HN HW HI HS HR HV HE.
  - cbn. exists []. split; [now rewrite app_nil_r|]. rewrite app_nil_r. f_equal. now apply scope_eta.
  - cbn in WF. destruct WF as [WFi WFl]. specialize (IH WFl).
    cbn [flat_map] in HW. rewrite lmax_cons in HN.
    assert (A := Hi WFi c0 n D h pre (flat_map flat l ++ post) s st f r (lsum count l + k) HD (fun X => proj1 (HC X)) ltac:(lia)
      ltac:(rewrite HW; now rewrite <- !app_assoc) HI HS HR HV HE).
    rewrite lsum_cons. cbn [rseq]. rewrite <- Nat.add_assoc.
    destruct (render false (w_host w) (w_input w) i st) as [o st'|e|p|]; cbn [rthen agrees] in *; try exact A.
    destruct A as (new & V & E).
    assert (B := IH c0 n D h (pre ++ flat i) post
      (Scope (length (pre ++ flat i)) (Frame (fr_name f) (fr_vars f ++ new) (fr_out f ++ o) :: r) (rs_secs st')) st'
      (Frame (fr_name f) (fr_vars f ++ new) (fr_out f ++ o)) r k HD (fun X => proj2 (HC X)) ltac:(lia)
      ltac:(rewrite HW; now rewrite <- !app_assoc) eq_refl eq_refl HR ltac:(cbn; exact V) eq_refl).
    fold (rseq (render false (w_host w) (w_input w))). rewrite E.
    destruct (rseq (render false (w_host w) (w_input w)) l st') as [o' st2|e|p|]; cbn [agrees] in *; try exact B.
    destruct B as (new2 & V2 & E2). cbn [fr_vars fr_name fr_out] in V2, E2.
    exists (new ++ new2). rewrite !app_assoc in *. split; [exact V2|]. cbn [flat_map]. rewrite E2. now rewrite <- !app_assoc.
Qed.

Lemma next_at w s pre t post : w_toks w = pre ++ t :: post -> sc_idx s = length pre ->
  next_token w s = Some (t, set_idx (S (length pre)) s) /\ current w (set_idx (S (length pre)) s) = Some t.
Proof.
  intros E I. unfold next_token, current. cbn. rewrite E, I, nth_error_app2 by lia. rewrite Nat.sub_diag. cbn. now split.
Qed.

Lemma name_is_name n m : is_name (Some n) m = text_eqb n m.
Proof. reflexivity. Qed.
Lemma leaf_called i t : sane i -> calm i -> is_block i = false -> flat i = [t] ->
  exists nm, token_fn_name t = Ok nm /\ is_name nm (lit "else") = false /\ is_name nm (lit "end") = false.
Proof.
  intros WF CM B F. destruct i; try discriminate B; cbn in F; injection F as <-.
  - cbn in WF. destruct t0 as [ti l]; cbn in *. unfold token_fn_name; cbn [t_inner].
    destruct ti as [x|g|v]; [now exists None| |now exists None].
    destruct g; try discriminate WF; eexists; split; try reflexivity; now split.
  - destruct CM as (nm & E & N1 & N2). exists (Some nm). cbn. rewrite E. split; [reflexivity|].
    split; now apply text_eqb_neq.
Qed.
Lemma leaf_name i t : well_formed i -> is_block i = false -> flat i = [t] ->
  exists nm, token_fn_name t = Ok nm /\ is_name nm (lit "else") = false /\ is_name nm (lit "end") = false.
Proof. intros WF. destruct (wf_sane i WF). now apply leaf_called. Qed.
Lemma leaf_flat i : is_block i = false -> exists t, flat i = [t].
Proof. destruct i; try discriminate; intros _; eexists; reflexivity. Qed.

Lemma skip_leaves w n h eof l : existsb is_block l = false -> all_sane l -> all_calm l ->
  forall pre post s k, w_toks w = pre ++ flat_map flat l ++ post -> sc_idx s = length pre -> length (sc_stack s) = S h ->
  run_cond (exec n w) w h eof (length (flat_map flat l) + k) false s =
  run_cond (exec n w) w h eof k false (set_idx (length (pre ++ flat_map flat l)) s).
Proof.
  induction l as [|i l IH]; intros B WF CM pre post s k HW HI HS.
  - cbn. rewrite app_nil_r. rewrite <- HI. now destruct s.
  - cbn in B. apply orb_false_iff in B. destruct B as [Bi Bl]. cbn in WF. destruct WF as [Wi Wl], CM as [Ci Cl].
    destruct (leaf_flat i Bi) as [t Ft]. cbn [flat_map] in *. rewrite Ft in *.
    destruct (leaf_called i t Wi Ci Bi Ft) as (nm & E & N1 & N2).
    change (([t] ++ flat_map flat l) ++ post) with (t :: flat_map flat l ++ post) in HW.
    destruct (next_at w s pre t _ HW HI) as [NT _].
    change (length ([t] ++ flat_map flat l) + k) with (S (length (flat_map flat l) + k)). cbn [run_cond].
    destruct (Nat.leb_spec (length (sc_stack s)) h); [lia|]. rewrite NT, E. cbn [bind orb].
    rewrite N1, N2. cbn [orb andb].
    rewrite (IH Bl Wl Cl (pre ++ [t]) post); [|rewrite HW; now rewrite <- app_assoc|cbn; rewrite app_length; cbn; lia|exact HS].
    f_equal. unfold set_idx. cbn. f_equal. now rewrite <- app_assoc.
Qed.

(** ** Each kind of item *)
Lemma plain_fn g l nm : func_name g = Some nm -> text_eqb nm (lit "else") = false -> plain_name (LTok (TFun g) l).
Proof. intros E N. exists (Some nm). unfold token_fn_name. cbn. now rewrite E. Qed.

Lemma goes_leaf w t : sane (ILeaf t) -> goes w (ILeaf t).
Proof.
  intros WF c0 n D h pre post s st f r k HD HC HN HW HI HS HR HV HE. cbn [count flat depth render] in *.
  destruct (next_at w s pre t post HW HI) as [NT C].
  destruct (leaf_called (ILeaf t) t WF I eq_refl eq_refl) as (nm & E1 & E2 & _).
  cbn [Nat.add]. rewrite (HD k s t _ ltac:(rewrite HS; cbn; lia) NT (fun _ => ex_intro _ nm (conj E1 E2))).
  destruct n as [|n]; [lia|]. rewrite (leaf_exec n w t _ f r WF C HS).
  cbn [sc_stack sc_secs set_idx]. rewrite HV, HE, HS.
  destruct (leaf_effect _ _ _ _ _) as [[o new]|e|p|]; cbn [reffect agrees bind]; try reflexivity.
  exists new. rewrite HV, HE. split; [reflexivity|]. unfold upd. cbn. rewrite app_length. cbn. now rewrite Nat.add_1_r.
Qed.
Lemma goes_plugin w l p beh : sane (IPlugin l p beh) -> goes w (IPlugin l p beh).
Proof.
  intros WF c0 n D h pre post s st f r k HD HC HN HW HI HS HR HV HE. cbn [count flat depth render] in *.
  destruct (next_at w s pre _ post HW HI) as [NT C].
  assert (NM : c0 = true -> plain_name (LTok (TFun (FPlugin p)) l)).
  { intros X. destruct (leaf_called (IPlugin l p beh) _ WF (HC X) eq_refl eq_refl) as (nm & E1 & E2 & _). now exists nm. }
  cbn [Nat.add]. rewrite (HD k s _ _ ltac:(rewrite HS; cbn; lia) NT NM).
  destruct n as [|n]; [lia|]. cbn [exec t_inner exec_fn]. unfold with_current. rewrite C. cbn [t_loc].
  rewrite (WF l (set_idx (S (length pre)) s) f r HS).
  cbn [sc_stack sc_secs set_idx]. rewrite HV, HE, HS.
  destruct (beh _ _ _) as [[o new]|e|q|]; cbn [reffect agrees bind]; try reflexivity.
  exists new. rewrite HV, HE. split; [reflexivity|]. cbn. rewrite app_length. cbn. now rewrite Nat.add_1_r.
Qed.

Lemma cons_app_length {A} (a : list A) x b : length (a ++ x :: b) = S (length (a ++ b)).
Proof. rewrite !app_length. cbn. lia. Qed.

Lemma goes_section w l label custom body record l' :
  goes_all w body -> goes w (ISection l label custom body record l').
Proof.
  intros HB c0 n D h pre post s st f r k HD HC HN HW HI HS HR HV HE. cbn [count flat depth render] in *.
  set (tb := LTok (TFun (FBegin label custom)) l) in *. set (te := LTok (TFun (section_end label record)) l') in *.
  assert (W1 : w_toks w = pre ++ tb :: (flat_map flat body ++ [te]) ++ post) by exact HW.
  destruct (next_at w s pre tb _ W1 HI) as [NT C].
  assert (PB : plain_name tb) by now apply plain_fn with (lit "begin").
  assert (PE : plain_name te) by (unfold te, section_end; destruct record; now apply plain_fn with (lit "end")).
  change (2 + lsum count body + k) with (S (S (lsum count body + k))).
  rewrite (HD (S (lsum count body + k)) s tb _ ltac:(rewrite HS; cbn; lia) NT (fun _ => PB)).
  destruct n as [|n]; [assert (X := lmax_pos depth body); lia|].
  change (exec (S n) w tb (set_idx (S (length pre)) s)) with
    (@Ok tbe scope (push_frame (new_frame (lit "begin:" ++ label)) (set_idx (S (length pre)) s))). cbn [bind].
  set (nf := new_frame (lit "begin:" ++ label)). set (s1 := push_frame nf (set_idx (S (length pre)) s)).
  replace (S (lsum count body + k)) with (lsum count body + S k) by lia.
  assert (A := HB c0 (S n) D h (pre ++ [tb]) ([te] ++ post) s1 (RState ([] :: rs_scopes st) (rs_secs st)) nf (f :: r) (S k)
    HD HC HN ltac:(rewrite W1; now rewrite <- !app_assoc) ltac:(cbn; rewrite app_length; cbn; lia)
    ltac:(cbn; now rewrite HS) ltac:(cbn; lia) ltac:(cbn; now rewrite HV) ltac:(cbn; exact HE)).
  unfold rscope. destruct (rseq _ body _) as [o st'|e|p|]; cbn [agrees] in *; try exact A.
  destruct A as (new & V & E). rewrite E. cbn [fr_name fr_vars fr_out nf new_frame app] in *.
  set (s2 := Scope _ _ _).
  assert (W2 : w_toks w = (pre ++ tb :: flat_map flat body) ++ te :: post) by (rewrite W1; now rewrite <- !app_assoc).
  assert (I2 : sc_idx s2 = length (pre ++ tb :: flat_map flat body)) by (cbn; now rewrite <- app_assoc).
  destruct (next_at w s2 _ te _ W2 I2) as [NT2 C2].
  rewrite (HD k s2 te _ ltac:(cbn; lia) NT2 (fun _ => PE)). cbn [exec]. unfold te at 1. cbn [t_inner exec_fn].
  unfold landed. cbn [rs_scopes rs_secs].
  assert (X : exec_fn (exec n w) w (section_end label record) (set_idx (S (length (pre ++ tb :: flat_map flat body))) s2) =
    Ok (Scope (S (length (pre ++ tb :: flat_map flat body))) (add_out o f :: r) (rs_secs st' ++ if record then [(label, o)] else []))).
  { unfold section_end. destruct record; cbn [exec_fn]; unfold with_current; rewrite C2; unfold exec_end; cbn [sc_stack s2 set_idx fr_name fr_out].
    - rewrite text_eqb_refl. reflexivity.
    - change (starts_with (lit "begin" ++ [c_colon]) (lit "begin:" ++ label)) with (starts_with (lit "begin:") (lit "begin:" ++ label)).
      assert (Q : starts_with (lit "begin:") (lit "begin:" ++ label) = true) by (apply starts_with_spec; now exists label).
      rewrite Q. cbn. now rewrite app_nil_r. }
  rewrite X. cbn [bind]. exists []. rewrite app_nil_r. split; [exact HV|]. f_equal. f_equal.
  rewrite cons_app_length. rewrite !cons_app_length. rewrite !app_assoc, cons_app_length, app_nil_r. reflexivity.
Qed.

Lemma rseq_done_nil {A} (f : A -> rstate -> rres) st : rseq f [] st = RDone [] st.
Proof. reflexivity. Qed.

Lemma loop_goes w n body l' pre post eof name f0 :
  goes_all w body -> lmax depth body <= n -> 
  w_toks w = pre ++ flat_map flat body ++ LTok (TFun (FEnd (lit "for") false)) l' :: post ->
  f0 = rseq (render false (w_host w) (w_input w)) body ->
  forall vs s st f r, sc_stack s = f :: r -> rs_scopes st = map fr_vars (f :: r) -> rs_secs st = sc_secs s ->
  agrees (for_loop (exec n w) w name (length pre) eof vs s) (rseq (fun v => rscope [(name, v)] f0) vs st)
    (fun o st' => rs_scopes st' = map fr_vars (f :: r) /\ for_loop (exec n w) w name (length pre) eof vs s =
       Ok (Scope (match vs with [] => sc_idx s | _ => S (length (pre ++ flat_map flat body)) end) (add_out o f :: r) (rs_secs st'))).
Proof.
  intros HB HN HW ->. set (te := LTok _ l') in *.
  induction vs as [|v vs IH]; intros s st f r HS HV HE; cbn [rseq for_loop].
  - cbn. split; [exact HV|]. f_equal. unfold add_out. rewrite app_nil_r. rewrite HE. destruct s, f; cbn in *; now subst.
  - set (nf := add_var name v (new_frame (lit "for:" ++ name))). 
    change (length (sc_stack (set_idx (length pre) s))) with (length (sc_stack s)).
    assert (K : exists k', S (length (w_toks w)) = lsum count body + S k').
    { exists (length (w_toks w) - lsum count body). assert (X := lsum_flat body). rewrite HW. rewrite !app_length. cbn. lia. }
    destruct K as (k' & K). rewrite K.
    assert (A := HB false n (run_block (exec n w) w (length (sc_stack s)) eof) (length (sc_stack s)) pre (te :: post)
      (push_frame nf (set_idx (length pre) s)) (RState ([(name, v)] :: rs_scopes st) (rs_secs st)) nf (sc_stack s) (S k')
      (drives_body _ _ _ _) ltac:(discriminate) HN HW eq_refl eq_refl ltac:(lia) ltac:(cbn; now rewrite HV, HS) HE).
    unfold rscope at 1. destruct (rseq _ body _) as [o st'|e|p|]; cbn [agrees rthen] in *; try exact I; try (rewrite A; reflexivity).
    destruct A as (new & V & E). rewrite E. cbn [rs_secs fr_name fr_vars fr_out nf add_var new_frame app] in *.
    set (s2 := Scope _ _ _).
    assert (W2 : w_toks w = (pre ++ flat_map flat body) ++ te :: post) by (rewrite HW; now rewrite <- !app_assoc).
    destruct (next_at w s2 _ te _ W2 eq_refl) as [NT2 C2].
    rewrite (drives_block w n (length (sc_stack s)) eof k' s2 te _ ltac:(cbn; lia) NT2 ltac:(now apply plain_fn with (lit "end"))).
    destruct n as [|n]; [assert (X := lmax_pos depth body); lia|].
    assert (X : exec (S n) w te (set_idx (S (length (pre ++ flat_map flat body))) s2) =
      Ok (Scope (S (length (pre ++ flat_map flat body))) (add_out o f :: r) (rs_secs st'))).
    { cbn [exec]. unfold te at 1. cbn [t_inner exec_fn]. unfold with_current. rewrite C2. unfold exec_end. cbn [sc_stack s2 set_idx fr_name fr_out].
      change (starts_with (lit "for" ++ [c_colon]) (lit "for:" ++ name)) with (starts_with (lit "for:") (lit "for:" ++ name)).
      assert (Q : starts_with (lit "for:") (lit "for:" ++ name) = true) by (apply starts_with_spec; now exists name).
      rewrite Q. unfold output. cbn [set_stack sc_stack]. rewrite HS. reflexivity. }
    rewrite X. cbn [bind].
    set (s3 := Scope _ _ _).
    assert (R : run_block (exec (S n) w) w (length (sc_stack s)) eof k' s3 = Ok s3).
    { destruct k'; cbn [run_block]; (destruct (Nat.leb_spec (length (sc_stack s3)) (length (sc_stack s))); [reflexivity|]; rewrite HS in *; cbn in *; lia). }
    rewrite R. cbn [bind].
    assert (IH' := IH s3 (RState (rs_scopes st) (rs_secs st')) (add_out o f) r eq_refl ltac:(cbn; exact HV) eq_refl).
    fold (rseq (fun v => rscope [(name, v)] (rseq (render false (w_host w) (w_input w)) body))).
    match goal with |- context [rseq ?a vs ?b] => destruct (rseq a vs b) as [o2 st2|e|p|] end; cbn [agrees] in *; try exact IH'.
    destruct IH' as [V2 E2]. split; [exact V2|]. rewrite E2. unfold add_out at 1 2. cbn [fr_name fr_vars fr_out]. unfold add_out. rewrite app_assoc.
    destruct vs; reflexivity.
Qed.

Lemma goes_for w l ff body l' : goes_all w body -> goes w (IFor l ff body l').
Proof.
  intros HB c0 n D h pre post s st f r k HD HC HN HW HI HS HR HV HE. cbn [count flat depth render] in *.
  set (tf := LTok (TFun (FFor ff)) l) in *. set (te := LTok (TFun (FEnd (lit "for") false)) l') in *.
  assert (W1 : w_toks w = pre ++ tf :: (flat_map flat body ++ [te]) ++ post) by exact HW.
  destruct (next_at w s pre tf _ W1 HI) as [NT C].
  cbn [Nat.add]. rewrite (HD k s tf _ ltac:(rewrite HS; cbn; lia) NT ltac:(intros _; now apply plain_fn with (lit "for"))).
  destruct n as [|n]; [lia|]. cbn [exec]. change (t_inner tf) with (TFun (FFor ff)). cbn [exec_fn]. unfold with_current. rewrite C. change (t_loc tf) with l.
  rewrite HV, (for_values_vars (w_host w) (w_input w) (w_toks w) ff (f :: r)). rewrite <- HS.
  replace (World (w_host w) (w_input w) (w_toks w)) with w by now destruct w.
  cbn [sc_stack set_idx sc_idx].
  destruct (for_values w ff (sc_stack s)) as [vs|e|p|]; cbn [map_err bind agrees]; try exact I; try reflexivity.
  destruct (select ff vs) as [|v vs']; [exact I|].
  assert (A := loop_goes w n body l' (pre ++ [tf]) post (tb l XE_UnexpectedEndOfFile) (ff_var ff) _ HB ltac:(lia)
     ltac:(rewrite W1; now rewrite <- !app_assoc) eq_refl (v :: vs') (set_idx (S (length pre)) s) st f r HS HV HE).
  rewrite app_length in A. cbn [length] in A. rewrite Nat.add_1_r in A.
  match goal with |- context [rseq ?a (v :: vs') ?b] => destruct (rseq a (v :: vs') b) as [o2 st2|e|p|] end; cbn [agrees] in *;
    try exact I; try (rewrite A; reflexivity).
  destruct A as [V E]. rewrite E. cbn [bind]. exists []. rewrite app_nil_r. split; [exact V|].
  f_equal. f_equal. rewrite !app_length. cbn. rewrite !app_length. cbn. lia.
Qed.

(** ** Conditionals *)
Definition cond_frame (c : test) : text :=
  match c with TDefined v => lit "ifdefined:" ++ v | TCompare c a b => if_frame_name c a b end.
Lemma cond_frame_if c : starts_with (lit "if") (cond_frame c) = true.
Proof. apply starts_with_spec. destruct c as [v|c a b]; [|destruct c]; eexists; reflexivity. Qed.
Lemma cond_frame_name c : starts_with (test_name c ++ [c_colon]) (cond_frame c) = true.
Proof.
  apply starts_with_spec. destruct c as [v|c a b]; cbn [cond_frame test_name]; [exists v; reflexivity|].
  unfold if_frame_name. eexists. rewrite <- app_assoc. reflexivity.
Qed.

Lemma cond_done ex w h eof k b s : length (sc_stack s) <= h -> run_cond ex w h eof k b s = Ok s.
Proof. intros L. destruct k; cbn [run_cond]; (destruct (Nat.leb_spec (length (sc_stack s)) h); [reflexivity|lia]). Qed.
Lemma cond_end w n eof pre l' c post s x f r b k :
  w_toks w = pre ++ LTok (TFun (FEnd (test_name c) false)) l' :: post -> sc_idx s = length pre ->
  sc_stack s = x :: f :: r -> fr_name x = cond_frame c ->
  run_cond (exec (S n) w) w (length (f :: r)) eof (S k) b s =
  Ok (Scope (S (length pre)) (add_out (fr_out x) f :: r) (sc_secs s)).
Proof.
  intros W I S N. destruct (next_at w s pre _ post W I) as [NT C]. cbn [run_cond].
  destruct (Nat.leb_spec (length (sc_stack s)) (length (f :: r))) as [L|L]; [rewrite S in L; cbn in L; lia|].
  rewrite NT. unfold token_fn_name. cbn [t_inner func_name bind is_name].
  change (text_eqb (lit "end") (lit "end")) with true. cbn [orb].
  cbn [sc_stack set_idx]. rewrite S. change (length (x :: f :: r)) with (Datatypes.S (length (f :: r))). rewrite Nat.eqb_refl.
  cbn [andb]. rewrite orb_true_r. cbn [exec t_inner exec_fn]. unfold with_current. rewrite C. unfold exec_end.
  cbn [sc_stack set_idx]. rewrite S, N, cond_frame_name. unfold output. cbn [set_stack sc_stack map_err bind].
  change (text_eqb (lit "end") (lit "else")) with false.
  apply cond_done. cbn. lia.
Qed.
Lemma cond_else w n eof pre le c post s x r b k :
  w_toks w = pre ++ LTok (TFun FElse) le :: post -> sc_idx s = length pre ->
  sc_stack s = x :: r -> fr_name x = cond_frame c ->
  run_cond (exec (S n) w) w (length r) eof (S k) b s =
  run_cond (exec (S n) w) w (length r) eof k (negb b) (set_idx (S (length pre)) s).
Proof.
  intros W I S N. destruct (next_at w s pre _ post W I) as [NT C]. cbn [run_cond].
  destruct (Nat.leb_spec (length (sc_stack s)) (length r)) as [L|L]; [rewrite S in L; cbn in L; lia|].
  rewrite NT. unfold token_fn_name. cbn [t_inner func_name bind is_name].
  change (text_eqb (lit "else") (lit "else")) with true. change (text_eqb (lit "else") (lit "end")) with false. cbn [orb].
  cbn [sc_stack set_idx]. rewrite S. change (length (x :: r)) with (Datatypes.S (length r)). rewrite Nat.eqb_refl.
  cbn [andb]. rewrite orb_true_r. cbn [exec t_inner exec_fn]. unfold with_current. rewrite C. unfold exec_else.
  cbn [sc_stack set_idx]. rewrite S, N, cond_frame_if. cbn [map_err bind]. reflexivity.
Qed.

(** Entering a conditional. *)
Lemma cond_enter n w l c s f r : current w s = Some (LTok (TFun (test_fn c)) l) -> sc_stack s = f :: r ->
  exec (S n) w (LTok (TFun (test_fn c)) l) s =
  match holds c (map fr_vars (f :: r)) with
  | Ok b => run_cond (exec n w) w (length (f :: r)) (tb l XE_UnexpectedEndOfFile) (S (length (w_toks w))) b
              (push_frame (new_frame (cond_frame c)) s)
  | Err e => Err (tb l e)
  | Panic p => Panic p
  | OutOfFuel => OutOfFuel
  end.
Proof.
  intros C S. cbn [exec t_inner]. destruct c as [v|c a b]; cbn [test_fn exec_fn holds]; unfold with_current; cbn [test_fn] in C; rewrite C; cbn [t_loc].
  - rewrite get_variable_vars. rewrite S. destruct (get_variable v (f :: r)) as [x|]; [|reflexivity]. now destruct x.
  - rewrite !eval_input_vars. rewrite S. destruct (eval_input a (f :: r)); cbn [ok_or bind]; [|reflexivity].
    destruct (eval_input b (f :: r)); cbn [ok_or bind]; reflexivity.
Qed.
Lemma test_plain c l : plain_name (LTok (TFun (test_fn c)) l).
Proof. destruct c as [v|c a b]; [now apply plain_fn with (lit "ifdefined")|]. destruct c; eapply plain_fn; reflexivity. Qed.

(** The branch that is taken. *)
Lemma branch_taken w n c body pre post s x f r st k : goes_all w body -> all_calm body -> lmax depth body <= n ->
  w_toks w = pre ++ flat_map flat body ++ post -> sc_idx s = length pre -> sc_stack s = x :: f :: r ->
  x = new_frame (cond_frame c) -> rs_scopes st = map fr_vars (f :: r) -> rs_secs st = sc_secs s -> forall eof,
  agrees (run_cond (exec n w) w (length (f :: r)) eof (lsum count body + k) true s)
    (rscope [] (rseq (render false (w_host w) (w_input w)) body) st)
    (fun o st' => rs_scopes st' = map fr_vars (f :: r) /\ exists y, fr_name y = cond_frame c /\ fr_out y = o /\
      run_cond (exec n w) w (length (f :: r)) eof (lsum count body + k) true s =
      run_cond (exec n w) w (length (f :: r)) eof k true (Scope (length (pre ++ flat_map flat body)) (y :: f :: r) (rs_secs st'))).
Proof.
  intros HB CM HN HW HI HS HX HV HE eof.
  assert (A := HB true n _ (length (f :: r)) pre post s (RState ([] :: rs_scopes st) (rs_secs st)) x (f :: r) k
    (drives_asks _ _ _ _ (drives_cond w n (length (f :: r)) eof)) (fun _ => CM) HN HW HI HS ltac:(lia) ltac:(cbn [rs_scopes]; rewrite HV, HX; reflexivity) HE).
  unfold rscope. destruct (rseq _ body _) as [o st'|e|p|]; cbn [agrees] in *; try exact A.
  destruct A as (new & V & E). cbn [rs_scopes rs_secs]. split; [exact HV|].
  exists (Frame (fr_name x) (fr_vars x ++ new) (fr_out x ++ o)). rewrite E. subst x. repeat split.
Qed.

Lemma goes_if w l c yes l' : all_sane yes -> all_calm yes -> goes_all w yes -> goes w (IIf l c yes l').
Proof.
  intros WF CM HB c0 n D h pre post s st f r k HD HC HN HW HI HS HR HV HE. cbn [count flat depth render] in *.
  set (ti := LTok (TFun (test_fn c)) l) in *. set (te := LTok (TFun (FEnd (test_name c) false)) l') in *.
  assert (W1 : w_toks w = pre ++ ti :: (flat_map flat yes ++ [te]) ++ post) by exact HW.
  assert (W2 : w_toks w = (pre ++ [ti]) ++ flat_map flat yes ++ te :: post) by (rewrite W1; now rewrite <- !app_assoc).
  destruct (next_at w s pre ti _ W1 HI) as [NT C].
  cbn [Nat.add]. rewrite (HD k s ti _ ltac:(rewrite HS; cbn; lia) NT ltac:(intros _; apply test_plain)).
  destruct n as [|n]; [lia|]. unfold ti in C |- *. rewrite (cond_enter n w l c _ f r C HS). fold ti in C |- *. rewrite HV.
  destruct n as [|n]; [assert (X := lmax_pos depth yes); lia|].
  destruct (holds c (map fr_vars (f :: r))) as [[|]|e|p|]; cbn [bind agrees]; try exact I; try reflexivity.
  - assert (K : exists k', S (length (w_toks w)) = lsum count yes + S k').
    { exists (length (w_toks w) - lsum count yes). assert (X := lsum_flat yes). rewrite W1. rewrite !app_length. cbn. rewrite !app_length. lia. }
    destruct K as (k' & ->).
    assert (A := branch_taken w (S n) c yes (pre ++ [ti]) (te :: post) (push_frame (new_frame (cond_frame c)) (set_idx (S (length pre)) s))
      _ f r st (S k') HB CM ltac:(lia) W2 ltac:(cbn; rewrite app_length; cbn; lia) ltac:(cbn; now rewrite HS) eq_refl HV HE (tb l XE_UnexpectedEndOfFile)).
    destruct (rscope _ _ _) as [o st'|e|p|]; cbn [agrees] in *; try exact I; try (rewrite A; reflexivity).
    destruct A as (V & y & Y1 & Y2 & E). rewrite E.
    rewrite (cond_end w n _ ((pre ++ [ti]) ++ flat_map flat yes) l' c post (Scope (length ((pre ++ [ti]) ++ flat_map flat yes)) (y :: f :: r) (rs_secs st')) y f r true k' ltac:(rewrite W2; now rewrite <- !app_assoc) eq_refl eq_refl Y1).
    cbn [bind sc_secs]. exists []. rewrite app_nil_r. split; [exact V|]. rewrite Y2. f_equal. f_equal.
    rewrite !app_length. cbn. rewrite !app_length. cbn. lia.
  - cbn [negb andb]; destruct (existsb is_block yes) eqn:B; [exact I|]. cbn [agrees].
    assert (K : exists k', S (length (w_toks w)) = length (flat_map flat yes) + S k').
    { exists (length (w_toks w) - length (flat_map flat yes)). rewrite W1. rewrite !app_length. cbn. rewrite !app_length. lia. }
    destruct K as (k' & ->).
    rewrite (skip_leaves w (S n) _ _ yes B WF CM (pre ++ [ti]) (te :: post) (push_frame (new_frame (cond_frame c)) (set_idx (S (length pre)) s)) _ W2 ltac:(cbn; rewrite app_length; cbn; lia) ltac:(cbn; now rewrite HS)).
    rewrite (cond_end w n _ ((pre ++ [ti]) ++ flat_map flat yes) l' c post (set_idx (length ((pre ++ [ti]) ++ flat_map flat yes)) (push_frame (new_frame (cond_frame c)) (set_idx (S (length pre)) s))) (new_frame (cond_frame c)) f r false k' ltac:(rewrite W2; now rewrite <- !app_assoc) eq_refl ltac:(cbn; now rewrite HS) eq_refl).
    cbn [bind sc_secs]. exists []. rewrite app_nil_r. split; [exact HV|]. rewrite HE. f_equal. f_equal.
    rewrite !app_length. cbn. rewrite !app_length. cbn. lia.
Qed.

Lemma goes_ifelse w l c yes le no l' : all_sane yes /\ all_calm yes -> all_sane no /\ all_calm no -> goes_all w yes -> goes_all w no ->
  goes w (IIfElse l c yes le no l').
Proof.
  intros [WY CY] [WN CN] HY HNo c0 n D h pre post s st f r k HD HC HN HW HI HS HR HV HE. cbn [count flat depth render] in *.
  set (ti := LTok (TFun (test_fn c)) l) in *. set (te := LTok (TFun (FEnd (test_name c) false)) l') in *.
  set (tl := LTok (TFun FElse) le) in *.
  assert (W2 : w_toks w = (pre ++ [ti]) ++ flat_map flat yes ++ tl :: flat_map flat no ++ te :: post).
  { rewrite HW. repeat (rewrite <- !app_assoc; cbn [app]). reflexivity. }
  assert (W3 : w_toks w = ((pre ++ [ti]) ++ flat_map flat yes ++ [tl]) ++ flat_map flat no ++ te :: post).
  { rewrite W2. repeat (rewrite <- !app_assoc; cbn [app]). reflexivity. }
  assert (W4 : w_toks w = (((pre ++ [ti]) ++ flat_map flat yes ++ [tl]) ++ flat_map flat no) ++ te :: post).
  { rewrite W3. repeat (rewrite <- !app_assoc; cbn [app]). reflexivity. }
  assert (W5 : w_toks w = ((pre ++ [ti]) ++ flat_map flat yes) ++ tl :: flat_map flat no ++ te :: post).
  { rewrite W2. repeat (rewrite <- !app_assoc; cbn [app]). reflexivity. }
  assert (LE : S (length ((pre ++ [ti]) ++ flat_map flat yes)) = length ((pre ++ [ti]) ++ flat_map flat yes ++ [tl])).
  { rewrite !app_length. cbn. lia. }
  assert (LT : length (w_toks w) >= 2 + length (flat_map flat yes) + length (flat_map flat no)).
  { rewrite W2. rewrite !app_length. cbn. rewrite !app_length. cbn. lia. }
  assert (Cy := lsum_flat yes). assert (Cn := lsum_flat no).
  assert (NTC : next_token w s = Some (ti, set_idx (S (length pre)) s) /\ current w (set_idx (S (length pre)) s) = Some ti).
  { eapply next_at; [|exact HI]. rewrite HW. reflexivity. }
  destruct NTC as [NT C].
  cbn [Nat.add]. rewrite (HD k s ti _ ltac:(rewrite HS; cbn; lia) NT ltac:(intros _; apply test_plain)).
  destruct n as [|n]; [lia|]. unfold ti in C |- *. rewrite (cond_enter n w l c _ f r C HS). fold ti in C |- *. rewrite HV.
  assert (X := lmax_pos depth yes). destruct n as [|n]; [lia|].
  assert (LD : S (length (((pre ++ [ti]) ++ flat_map flat yes ++ [tl]) ++ flat_map flat no)) =
    length (pre ++ ti :: flat_map flat yes ++ tl :: flat_map flat no ++ [te])).
  { rewrite !app_length. cbn. rewrite !app_length. cbn. rewrite !app_length. cbn. lia. }
  destruct (holds c (map fr_vars (f :: r))) as [[|]|e|p|]; cbn [bind agrees]; try exact I; try reflexivity.
  - assert (K : exists k', S (length (w_toks w)) = lsum count yes + S (length (flat_map flat no) + S k')).
    { exists (length (w_toks w) - lsum count yes - S (length (flat_map flat no))). lia. }
    destruct K as (k' & ->).
    assert (A := branch_taken w (S n) c yes (pre ++ [ti]) (tl :: flat_map flat no ++ te :: post) (push_frame (new_frame (cond_frame c)) (set_idx (S (length pre)) s))
      _ f r st (S (length (flat_map flat no) + S k')) HY CY ltac:(lia) W2 ltac:(cbn; rewrite app_length; cbn; lia) ltac:(cbn; now rewrite HS) eq_refl HV HE (tb l XE_UnexpectedEndOfFile)).
    destruct (rscope _ _ _) as [o st'|e|p|]; cbn [agrees rthen] in *; try exact I; try (rewrite A; reflexivity).
    destruct A as (V & y & Y1 & Y2 & E). cbn [negb andb]; destruct (existsb is_block no) eqn:B; [exact I|]. cbn [agrees]. rewrite E.
    rewrite (cond_else w n _ ((pre ++ [ti]) ++ flat_map flat yes) le c _ (Scope (length ((pre ++ [ti]) ++ flat_map flat yes)) (y :: f :: r) (rs_secs st')) y (f :: r) true _ W5 eq_refl eq_refl Y1).
    cbn [negb]. rewrite LE.
    rewrite (skip_leaves w (S n) _ _ no B WN CN ((pre ++ [ti]) ++ flat_map flat yes ++ [tl]) (te :: post) (Scope (length ((pre ++ [ti]) ++ flat_map flat yes ++ [tl])) (y :: f :: r) (rs_secs st')) _ W3 eq_refl eq_refl).
    rewrite (cond_end w n _ (((pre ++ [ti]) ++ flat_map flat yes ++ [tl]) ++ flat_map flat no) l' c post (Scope (length (((pre ++ [ti]) ++ flat_map flat yes ++ [tl]) ++ flat_map flat no)) (y :: f :: r) (rs_secs st')) y f r false k' W4 eq_refl eq_refl Y1).
    cbn [bind sc_secs]. exists []. rewrite app_nil_r. split; [exact V|]. rewrite Y2. cbn [set_idx sc_secs]. rewrite LD. now rewrite app_nil_r.
  - cbn [negb andb]; destruct (existsb is_block yes) eqn:B; [exact I|].
    assert (K : exists k', S (length (w_toks w)) = length (flat_map flat yes) + S (lsum count no + S k')).
    { exists (length (w_toks w) - length (flat_map flat yes) - S (lsum count no)). lia. }
    destruct K as (k' & ->).
    rewrite (skip_leaves w (S n) _ _ yes B WY CY (pre ++ [ti]) (tl :: flat_map flat no ++ te :: post) (push_frame (new_frame (cond_frame c)) (set_idx (S (length pre)) s)) _ W2 ltac:(cbn; rewrite app_length; cbn; lia) ltac:(cbn; now rewrite HS)).
    rewrite (cond_else w n _ ((pre ++ [ti]) ++ flat_map flat yes) le c _ (set_idx (length ((pre ++ [ti]) ++ flat_map flat yes)) (push_frame (new_frame (cond_frame c)) (set_idx (S (length pre)) s))) (new_frame (cond_frame c)) (f :: r) false _ W5 eq_refl ltac:(cbn; now rewrite HS) eq_refl).
    cbn [negb]. rewrite LE.
    set (s2 := set_idx (length ((pre ++ [ti]) ++ flat_map flat yes ++ [tl])) _).
    assert (A := branch_taken w (S n) c no ((pre ++ [ti]) ++ flat_map flat yes ++ [tl]) (te :: post) s2
      _ f r st (S k') HNo CN ltac:(lia) W3 eq_refl ltac:(cbn; now rewrite HS) eq_refl HV HE (tb l XE_UnexpectedEndOfFile)).
    destruct (rscope _ _ _) as [o st'|e|p|]; cbn [agrees rthen] in *; try exact I; try (rewrite A; reflexivity).
    destruct A as (V & y & Y1 & Y2 & E). rewrite E.
    rewrite (cond_end w n _ (((pre ++ [ti]) ++ flat_map flat yes ++ [tl]) ++ flat_map flat no) l' c post (Scope (length (((pre ++ [ti]) ++ flat_map flat yes ++ [tl]) ++ flat_map flat no)) (y :: f :: r) (rs_secs st')) y f r true k' W4 eq_refl eq_refl Y1).
    cbn [bind sc_secs]. exists []. rewrite app_nil_r. split; [exact V|]. rewrite Y2. now rewrite LD.
Qed.

Lemma goes_item w i : sane i -> goes w i.
Proof.
  assert (L : forall l, Forall (fun i => sane i -> goes w i) l -> all_sane l -> goes_all w l) by apply goes_list.
  induction i using item_induct; intros WF.
  - now apply goes_leaf.
  - now apply goes_plugin.
  - apply goes_section. now apply L.
  - apply goes_for. now apply L.
  - destruct WF as [W1 W2]. apply goes_if; [exact W1|exact W2|now apply L].
  - destruct WF as [W1 W2]. apply goes_ifelse; [exact W1|exact W2|apply L; [exact H|exact (proj1 W1)]|apply L; [exact H0|exact (proj1 W2)]].
Qed.
Lemma goes_items w l : all_sane l -> goes_all w l.
Proof. intros WF. apply goes_list; [|exact WF]. apply Forall_forall. intros i _. apply goes_item. Qed.

Lemma follows_item w i : well_formed i -> follows w i.
Proof.
  intros WF n D h pre post s st f r k HD. destruct (wf_sane i WF) as [Sa Ca].
  exact (goes_item w i Sa true n D h pre post s st f r k (drives_asks w n h D HD) (fun _ => Ca)).
Qed.
Lemma follows_items w l : all_wf l -> follows_all w l.
Proof.
  intros WF n D h pre post s st f r k HD. destruct (wf_all_sane l WF) as [Sa Ca].
  exact (goes_items w l Sa true n D h pre post s st f r k (drives_asks w n h D HD) (fun _ => Ca)).
Qed.

(** A whole template. *)
Lemma run_goes h site l f r secs : all_sane l ->
  let w := World h site (flat_map flat l) in
  match render_all false h site l (RState (map fr_vars (f :: r)) secs) with
  | RDone o st => exists new, rs_scopes st = (fr_vars f ++ new) :: map fr_vars r /\
      run w (Scope 0 (f :: r) secs) =
      Ok (Scope (length (flat_map flat l)) (Frame (fr_name f) (fr_vars f ++ new) (fr_out f ++ o) :: r) (rs_secs st))
  | RStop e => run w (Scope 0 (f :: r) secs) = Err e
  | RPanic p => run w (Scope 0 (f :: r) secs) = Panic p
  | ROdd => True
  end.
Proof.
  intros WF w. unfold run, render_all.
  assert (K : exists k', S (length (w_toks w)) = lsum count l + S k').
  { exists (length (w_toks w) - lsum count l). assert (X := lsum_flat l). cbn. lia. }
  destruct K as (k' & K).
  assert (A := goes_items w l WF false (S (length (w_toks w))) (fun k => run_all k (S (length (w_toks w))) w) 0 [] []
    (Scope 0 (f :: r) secs) (RState (map fr_vars (f :: r)) secs) f r (S k') (drives_any w _) ltac:(discriminate)
    ltac:(exact (lmax_flat l)) ltac:(cbn; now rewrite app_nil_r) eq_refl eq_refl ltac:(lia) eq_refl eq_refl).
  cbn beta in A. rewrite <- K in A.
  change (w_host w) with h in A. change (w_input w) with site in A.
  destruct (rseq (render false h site) l (RState (map fr_vars (f :: r)) secs)) as [o st|e|p|]; cbn [agrees] in A; try exact I.
  - destruct A as (new & V & E). exists new. split; [exact V|]. rewrite E.
    cbn [run_all]. unfold next_token. cbn [sc_idx w w_toks app].
    assert (N : nth_error (flat_map flat l) (length (flat_map flat l)) = None) by (apply nth_error_None; lia).
    now rewrite N.
  - exact A.
  - exact A.
Qed.

Lemma run_follows h site l f r secs : all_wf l ->
  let w := World h site (flat_map flat l) in
  match render_all false h site l (RState (map fr_vars (f :: r)) secs) with
  | RDone o st => exists new, rs_scopes st = (fr_vars f ++ new) :: map fr_vars r /\
      run w (Scope 0 (f :: r) secs) =
      Ok (Scope (length (flat_map flat l)) (Frame (fr_name f) (fr_vars f ++ new) (fr_out f ++ o) :: r) (rs_secs st))
  | RStop e => run w (Scope 0 (f :: r) secs) = Err e
  | RPanic p => run w (Scope 0 (f :: r) secs) = Panic p
  | ROdd => True
  end.
Proof. intros WF. exact (run_goes h site l f r secs (proj1 (wf_all_sane l WF))). Qed.

(** ** Ideal rendering agrees wherever nothing odd happens *)
Lemma rseq_agrees {A} (F G : A -> rstate -> rres) l :
  Forall (fun i => forall st, F i st <> ROdd -> G i st = F i st) l ->
  forall st, rseq F l st <> ROdd -> rseq G l st = rseq F l st.
Proof.
  intros H. induction H as [|i l Hi Hl IH]; intros st N; cbn [rseq] in *; [reflexivity|].
  fold (rseq F) in *. fold (rseq G) in *.
  assert (N1 : F i st <> ROdd) by (intros E; rewrite E in N; now apply N).
  rewrite (Hi st N1). destruct (F i st) as [o st'|e|p|]; cbn [rthen] in *; try reflexivity.
  assert (N2 : rseq F l st' <> ROdd) by (intros E; rewrite E in N; now apply N).
  now rewrite (IH st' N2).
Qed.
Lemma rscope_agrees vs (F G : rstate -> rres) : (forall st, F st <> ROdd -> G st = F st) ->
  forall st, rscope vs F st <> ROdd -> rscope vs G st = rscope vs F st.
Proof.
  intros H st N. unfold rscope in *. rewrite H; [reflexivity|]. intros E. rewrite E in N. now apply N.
Qed.
Lemma ideal_item h site i : forall st, render false h site i st <> ROdd -> render true h site i st = render false h site i st.
Proof.
  induction i as [t|l p beh|l a b body c l' IH|l f body l' IH|l c yes l' IH|l c yes le no l' IH1 IH2] using item_induct; intros st N; cbn [render] in *.
  - reflexivity.
  - reflexivity.
  - rewrite (rscope_agrees [] (rseq (render false h site) body)); [reflexivity|now apply rseq_agrees|].
    intros E. rewrite E in N. now apply N.
  - destruct (for_values _ _ _) as [vs|e|p|]; try reflexivity. destruct (select f vs) as [|v vs']; [now destruct N|].
    apply rseq_agrees; [|exact N]. apply Forall_forall. intros x _ st0. apply rscope_agrees. now apply rseq_agrees.
  - destruct (holds c (rs_scopes st)) as [[|]|e|p|]; try reflexivity.
    + apply rscope_agrees; [now apply rseq_agrees|exact N].
    + cbn [negb andb] in *. destruct (existsb is_block yes); [now destruct N|reflexivity].
  - destruct (holds c (rs_scopes st)) as [[|]|e|p|]; try reflexivity.
    + assert (N1 : rscope [] (rseq (render false h site) yes) st <> ROdd) by (intros E; rewrite E in N; now apply N).
      rewrite (rscope_agrees [] (rseq (render false h site) yes) (rseq (render true h site) yes) ltac:(now apply rseq_agrees) st N1).
      destruct (rscope [] (rseq (render false h site) yes) st) as [o st'|e|p|]; cbn [rthen negb andb] in *; try reflexivity.
      destruct (existsb is_block no); [now destruct N|reflexivity].
    + cbn [negb andb] in *. destruct (existsb is_block yes); [now destruct N|].
      apply rscope_agrees; [now apply rseq_agrees|exact N].
Qed.
Lemma ideal_all h site l st : render_all false h site l st <> ROdd -> render_all true h site l st = render_all false h site l st.
Proof. apply rseq_agrees. apply Forall_forall. intros i _. apply ideal_item. Qed.
Lemma all_wf_forall l : all_wf l <-> Forall well_formed l.
Proof.
  split.
  - induction l as [|i l IH]; [constructor|]. intros [H1 H2]. constructor; [exact H1|now apply IH].
  - intros H. induction H; cbn; [exact I|now split].
Qed.
Lemma all_sane_forall l : all_sane l <-> Forall sane l.
Proof.
  split.
  - induction l as [|i l IH]; [constructor|]. intros [H1 H2]. constructor; [exact H1|now apply IH].
  - intros H. induction H; cbn; [exact I|now split].
Qed.
Lemma wf_forall_sane l : Forall well_formed l -> Forall sane l.
Proof. apply Forall_impl. intros i W. exact (proj1 (wf_sane i W)). Qed.
Lemma block_structure h site l f r secs : Forall sane l ->
  let st := RState (map fr_vars (f :: r)) secs in
  let result := run (World h site (flat_map flat l)) (Scope 0 (f :: r) secs) in
  render_all false h site l st <> ROdd ->
  match render_all true h site l st with
  | RDone o st' => exists new, rs_scopes st' = (fr_vars f ++ new) :: map fr_vars r /\
      result = Ok (Scope (length (flat_map flat l)) (Frame (fr_name f) (fr_vars f ++ new) (fr_out f ++ o) :: r) (rs_secs st'))
  | RStop e => result = Err e
  | RPanic p => result = Panic p
  | ROdd => False
  end.
Proof.
  intros WF st result N. apply all_sane_forall in WF. rewrite (ideal_all h site l st N).
  assert (A := run_goes h site l f r secs WF). fold st in A. fold result in A.
  destruct (render_all false h site l st); try exact A. now apply N.
Qed.
