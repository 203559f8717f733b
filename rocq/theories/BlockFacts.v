(** BlockFacts.v -- opening and closing blocks (C22 to C28). *)

From Coq Require Import String List NArith ZArith Bool Lia.
From Verif Require Import Text TextFacts Utf8 Json Base Syntax Parse Tree Interp Build SpecScope SpecPage InterpFacts ScopeFacts
  SpecRender RenderFacts SpecBlocks.
Import ListNotations.

(** ** The interpreter at some point of a template *)
Definition opener_name (o : opener) : text :=
  match o with OSection label _ => lit "begin:" ++ label | OLoop f => lit "for:" ++ ff_var f | OTest c => cond_frame c end.

Lemma run_prefix h site a rest f r secs o st : all_wf a ->
  render_all false h site a (RState (map fr_vars (f :: r)) secs) = RDone o st ->
  let w := World h site (flat_map flat a ++ rest) in
  exists new k, rs_scopes st = (fr_vars f ++ new) :: map fr_vars r /\ (length rest <= k)%nat /\
    run w (Scope 0 (f :: r) secs) =
    run_all (S k) (S (length (w_toks w))) w
      (Scope (length (flat_map flat a)) (Frame (fr_name f) (fr_vars f ++ new) (fr_out f ++ o) :: r) (rs_secs st)).
Proof.
  intros WF R w. unfold run.
  assert (L := lsum_flat a).
  assert (K : S (length (w_toks w)) = lsum count a + S (length (w_toks w) - lsum count a)).
  { cbn [w w_toks]. rewrite app_length. lia. }
  assert (A := follows_items w a WF (S (length (w_toks w))) (fun k => run_all k (S (length (w_toks w))) w) 0 [] rest
    (Scope 0 (f :: r) secs) (RState (map fr_vars (f :: r)) secs) f r (S (length (w_toks w) - lsum count a)) (drives_all w _)
    ltac:(assert (X := lmax_flat a); cbn [w w_toks]; rewrite app_length; lia) eq_refl eq_refl eq_refl ltac:(lia) eq_refl eq_refl).
  cbn beta in A. rewrite <- K in A. change (w_host w) with h in A. change (w_input w) with site in A.
  unfold render_all in R. rewrite R in A. cbn [agrees] in A. destruct A as (new & V & E).
  exists new, (length (w_toks w) - lsum count a). split; [exact V|]. split; [|exact E].
  cbn [w w_toks]. rewrite app_length. lia.
Qed.

(** After a properly nested prefix, an opening tag and a properly nested beginning of its body. *)
Lemma block_point h site a o lo b rest f r secs oa st vs ob st' : all_wf a -> all_wf b ->
  render_all false h site a (RState (map fr_vars (f :: r)) secs) = RDone oa st ->
  enters h site o (rs_scopes st) vs ->
  render_all false h site b (RState (vs :: rs_scopes st) (rs_secs st)) = RDone ob st' ->
  let w := World h site (flat_map flat a ++ LTok (TFun (opener_fn o)) lo :: flat_map flat b ++ rest) in
  exists n x new s2,
    rs_scopes st = (fr_vars f ++ new) :: map fr_vars r /\
    s2 = Scope (length (flat_map flat a) + S (length (flat_map flat b))) (x :: Frame (fr_name f) (fr_vars f ++ new) (fr_out f ++ oa) :: r) (rs_secs st') /\
    fr_name x = opener_name o /\
    (forall t rest' e nm, rest = t :: rest' -> token_fn_name t = Ok nm ->
       exec (S n) w t (set_idx (S (sc_idx s2)) s2) = Err e -> run w (Scope 0 (f :: r) secs) = Err e) /\
    (rest = [] -> run w (Scope 0 (f :: r) secs) =
       match o with OSection _ _ => Ok s2 | _ => Err (tb lo XE_UnexpectedEndOfFile) end).
Proof.
  intros WA WB RA EN RB w.
  set (to := LTok (TFun (opener_fn o)) lo) in *.
  destruct (run_prefix h site a (to :: flat_map flat b ++ rest) f r secs oa st WA RA) as (new & k & V & Hk & E).
  fold w in E. set (f' := Frame (fr_name f) (fr_vars f ++ new) (fr_out f ++ oa)) in *.
  set (s1 := Scope (length (flat_map flat a)) (f' :: r) (rs_secs st)) in *.
  assert (W1 : w_toks w = flat_map flat a ++ to :: flat_map flat b ++ rest) by reflexivity.
  destruct (next_at w s1 _ to _ W1 eq_refl) as [NT C].
  set (s1' := set_idx (S (length (flat_map flat a))) s1) in *.
  assert (Lw : length (w_toks w) = length (flat_map flat a) + S (length (flat_map flat b) + length rest)).
  { rewrite W1, app_length. cbn. now rewrite app_length. }
  assert (E1 : run w (Scope 0 (f :: r) secs) = let? s := exec (S (length (w_toks w))) w to s1' in run_all k (S (length (w_toks w))) w s).
  { rewrite E. cbn [run_all]. now rewrite NT. }
  clear E.
  assert (SV : rs_scopes st = map fr_vars (f' :: r)) by (rewrite V; reflexivity).
  assert (WB2 : w_toks w = (flat_map flat a ++ [to]) ++ flat_map flat b ++ rest) by (rewrite W1; now rewrite <- app_assoc).
  assert (LB := lmax_flat b). assert (CB := lsum_flat b). assert (DB := lmax_pos depth b).
  (* one driver for the body *)
  assert (BODY : forall nf D n ht k0, drives w (S n) ht D -> lmax depth b <= S n -> ht <= length (f' :: r) ->
    fr_vars nf = vs -> fr_out nf = [] ->
    exists nv, D (lsum count b + k0) (push_frame nf s1') =
      D k0 (Scope (length (flat_map flat a) + S (length (flat_map flat b))) (Frame (fr_name nf) (fr_vars nf ++ nv) ob :: f' :: r) (rs_secs st'))).
  { intros nf D n ht k0 HD HN HH HV HO.
    assert (A := follows_items w b WB (S n) D ht (flat_map flat a ++ [to]) rest (push_frame nf s1')
      (RState (vs :: rs_scopes st) (rs_secs st)) nf (f' :: r) k0 HD HN WB2
      ltac:(cbn; rewrite app_length; cbn; lia) eq_refl ltac:(cbn in *; lia) ltac:(cbn [rs_scopes]; rewrite SV, <- HV; reflexivity) eq_refl).
    change (w_host w) with h in A. change (w_input w) with site in A. unfold render_all in RB. rewrite RB in A. cbn [agrees] in A.
    destruct A as (nv & _ & A). exists nv. rewrite A, HO. cbn [app]. f_equal. f_equal. rewrite !app_length. cbn. lia. }
  assert (NEXT : forall x, let s2 := Scope (length (flat_map flat a) + S (length (flat_map flat b))) (x :: f' :: r) (rs_secs st') in
     next_token w s2 = match rest with [] => None | t :: _ => Some (t, set_idx (S (sc_idx s2)) s2) end).
  { intros x s2. unfold next_token. cbn [s2 sc_idx]. rewrite WB2, app_assoc, nth_error_app2; [|rewrite !app_length; cbn; lia].
    replace (length (flat_map flat a) + S (length (flat_map flat b)) - length ((flat_map flat a ++ [to]) ++ flat_map flat b)) with 0
      by (rewrite !app_length; cbn; lia). now destruct rest. }
  destruct o as [label custom|ff|c]; cbn [opener_fn opener_name enters] in *.
  - (* a section *)
    subst vs. cbn [exec] in E1. change (t_inner to) with (TFun (FBegin label custom)) in E1. cbn [exec_fn bind] in E1.
    set (nf := new_frame (lit "begin:" ++ label)) in *.
    assert (K : exists k0, k = lsum count b + S k0) by (exists (k - lsum count b - 1); cbn in Hk; rewrite app_length in Hk; lia).
    destruct K as [k0 K].
    destruct (BODY nf (fun k => run_all k (S (length (w_toks w))) w) (length (w_toks w)) 0 (S k0) (drives_all w _) ltac:(lia) ltac:(lia) eq_refl eq_refl) as (nv & B).
    cbn beta in B. rewrite <- K in B. rewrite B in E1. clear B.
    exists (length (w_toks w)), (Frame (fr_name nf) (fr_vars nf ++ nv) ob), new.
    match type of E1 with context [Scope ?i (Frame ?q ?u ob :: f' :: r) ?z] => set (s2 := Scope i (Frame q u ob :: f' :: r) z) in * end.
    exists s2. split; [exact V|]. split; [reflexivity|]. split; [reflexivity|]. specialize (NEXT (Frame (fr_name nf) (fr_vars nf ++ nv) ob)). cbn zeta in NEXT. fold s2 in NEXT. split.
    + intros t rest' e nm -> TN X. rewrite E1. cbn [run_all]. rewrite NEXT. rewrite X. reflexivity.
    + intros ->. rewrite E1. cbn [run_all]. now rewrite NEXT.
  - (* a loop *)
    destruct EN as (items & v & vrest & FV & SEL & ->).
    cbn [exec] in E1. change (t_inner to) with (TFun (FFor ff)) in E1. cbn [exec_fn] in E1. unfold with_current in E1. rewrite C in E1.
    change (t_loc to) with lo in E1. change (sc_stack s1') with (f' :: r) in E1.
    rewrite SV in FV. rewrite (for_values_vars h site (w_toks w)) in FV. change (World h site (w_toks w)) with w in FV. rewrite FV in E1.
    cbn [map_err bind] in E1. rewrite SEL in E1. cbn [for_loop] in E1.
    set (nf := add_var (ff_var ff) v (new_frame (lit "for:" ++ ff_var ff))) in *.
    change (set_idx (sc_idx s1') s1') with s1' in E1. change (length (sc_stack s1')) with (length (f' :: r)) in E1.
    assert (K : exists k0, S (length (w_toks w)) = lsum count b + S k0) by (exists (length (w_toks w) - lsum count b); lia).
    destruct K as [k0 K]. remember (length (w_toks w)) as m eqn:Hm. destruct m as [|m]; [lia|].
    destruct (BODY nf (run_block (exec (S m) w) w (length (f' :: r)) (tb lo XE_UnexpectedEndOfFile)) m (length (f' :: r)) (S k0)
       (drives_block _ _ _ _) ltac:(lia) ltac:(lia) eq_refl eq_refl) as (nv & B).
    rewrite K in E1. rewrite B in E1. clear B.
    exists m, (Frame (fr_name nf) (fr_vars nf ++ nv) ob), new.
    match type of E1 with context [Scope ?i (Frame ?q ?u ob :: f' :: r) ?z] => set (s2 := Scope i (Frame q u ob :: f' :: r) z) in * end.
    exists s2. split; [exact V|]. split; [reflexivity|]. split; [reflexivity|]. specialize (NEXT (Frame (fr_name nf) (fr_vars nf ++ nv) ob)). cbn zeta in NEXT. fold s2 in NEXT.
    assert (LS : Nat.leb (length (sc_stack s2)) (length (f' :: r)) = false) by (apply Nat.leb_gt; cbn; lia).
    split.
    + intros t rest' e nm -> TN X. rewrite E1. cbn [run_block]. rewrite LS, NEXT, X. reflexivity.
    + intros ->. rewrite E1. cbn [run_block]. now rewrite LS, NEXT.
  - (* a conditional *)
    destruct EN as [HO ->]. unfold to in C. rewrite SV in HO.
    assert (CE := cond_enter (length (w_toks w)) w lo c s1' f' r C eq_refl). fold to in CE. rewrite CE, HO in E1. clear CE.
    set (nf := new_frame (cond_frame c)) in *.
    assert (K : exists k0, S (length (w_toks w)) = lsum count b + S k0) by (exists (length (w_toks w) - lsum count b); lia).
    destruct K as [k0 K]. remember (length (w_toks w)) as m eqn:Hm. destruct m as [|m]; [lia|].
    destruct (BODY nf (fun k => run_cond (exec (S m) w) w (length (f' :: r)) (tb lo XE_UnexpectedEndOfFile) k true) m (length (f' :: r)) (S k0)
       (drives_cond _ _ _ _) ltac:(lia) ltac:(lia) eq_refl eq_refl) as (nv & B).
    cbn beta in B. rewrite K in E1. rewrite B in E1. clear B.
    exists m, (Frame (fr_name nf) (fr_vars nf ++ nv) ob), new.
    match type of E1 with context [Scope ?i (Frame ?q ?u ob :: f' :: r) ?z] => set (s2 := Scope i (Frame q u ob :: f' :: r) z) in * end.
    exists s2. split; [exact V|]. split; [reflexivity|]. split; [reflexivity|]. specialize (NEXT (Frame (fr_name nf) (fr_vars nf ++ nv) ob)). cbn zeta in NEXT. fold s2 in NEXT.
    assert (LS : Nat.leb (length (sc_stack s2)) (length (f' :: r)) = false) by (apply Nat.leb_gt; cbn; lia).
    split.
    + intros t rest' e nm -> TN X. rewrite E1. cbn [run_cond]. rewrite LS, NEXT, TN. cbn [bind orb]. rewrite X. reflexivity.
    + intros ->. rewrite E1. cbn [run_cond]. now rewrite LS, NEXT.
Qed.

(** ** Which [end] closes which block *)
Lemma no_colon_split a b c d : ~ In c_colon a -> ~ In c_colon c -> a ++ c_colon :: b = c ++ c_colon :: d -> a = c /\ b = d.
Proof.
  revert c. induction a as [|x a IH]; intros [|y c] A C E; cbn in E.
  - injection E as <-. now split.
  - injection E as <- _. destruct C. now left.
  - injection E as -> _. destruct A. now left.
  - injection E as -> E. destruct (IH c) as [-> ->]; [now intros H; apply A; right|now intros H; apply C; right|exact E|]. now split.
Qed.

Definition opener_kind (o : opener) : text :=
  match o with OSection _ _ => lit "begin" | OLoop _ => lit "for" | OTest c => test_name c end.
Lemma opener_name_kind o : exists d, opener_name o = opener_kind o ++ c_colon :: d.
Proof.
  destruct o as [l c|f|[v|c a b]]; cbn [opener_name opener_kind cond_frame test_name];
    [exists l; reflexivity|exists (ff_var f); reflexivity|exists v; reflexivity|]. eexists. reflexivity.
Qed.
Lemma test_name_no_colon c : ~ In c_colon (test_name c).
Proof. apply contains_char_false. destruct c as [v|[] a b]; reflexivity. Qed.
Lemma opener_kind_no_colon o : ~ In c_colon (opener_kind o).
Proof. destruct o; try apply test_name_no_colon; apply contains_char_false; reflexivity. Qed.
Lemma test_name_begin c : test_name c <> lit "begin".
Proof. destruct c as [v|[] a b]; discriminate. Qed.

Lemma closes_iff label custom o x : fr_name x = opener_name o -> (custom = false -> ~ In c_colon label) ->
  ((if custom then text_eqb (fr_name x) (lit "begin:" ++ label) else starts_with (label ++ [c_colon]) (fr_name x)) = true <->
   closes label custom o).
Proof.
  intros N NC. rewrite N. destruct (opener_name_kind o) as [d D]. unfold closes. destruct custom.
  - rewrite text_eqb_eq. split.
    + intros E. destruct o as [l c|f|c].
      * cbn [opener_name] in E. apply app_inv_head in E. subst l. now exists c.
      * rewrite D in E. cbn [opener_kind] in E. change (lit "begin:" ++ label) with (lit "begin" ++ c_colon :: label) in E.
        apply no_colon_split in E; [destruct E; discriminate| |]; apply contains_char_false; reflexivity.
      * rewrite D in E. change (lit "begin:" ++ label) with (lit "begin" ++ c_colon :: label) in E.
        apply no_colon_split in E; [|apply opener_kind_no_colon|apply contains_char_false; reflexivity].
        destruct E as [E _]. now apply test_name_begin in E.
    + intros [c ->]. reflexivity.
  - assert (X : starts_with (label ++ [c_colon]) (opener_name o) = true <-> label = opener_kind o).
    { rewrite starts_with_spec. rewrite D. split.
      - intros [q E]. rewrite <- app_assoc in E. cbn in E. symmetry in E.
        apply no_colon_split in E; [now destruct E|now apply NC|apply opener_kind_no_colon].
      - intros ->. exists d. now rewrite <- app_assoc. }
    rewrite X. destruct o; reflexivity.
Qed.

Lemma pushed_name o f : pushed_by o f <-> fr_name f = opener_name o.
Proof. destruct o as [l c|g|[v|c a b]]; reflexivity. Qed.

Lemma end_exec n w label custom l s x f r o : current w s = Some (LTok (TFun (FEnd label custom)) l) ->
  sc_stack s = x :: f :: r -> pushed_by o x -> (custom = false -> ~ In c_colon label) ->
  (closes label custom o -> exec (S n) w (LTok (TFun (FEnd label custom)) l) s =
     Ok (Scope (sc_idx s) (Frame (fr_name f) (fr_vars f) (fr_out f ++ fr_out x) :: r)
          (sc_secs s ++ if custom then [(label, fr_out x)] else []))) /\
  (~ closes label custom o -> exec (S n) w (LTok (TFun (FEnd label custom)) l) s = Err (tb l XE_EndWithoutBegin)).
Proof.
  intros C S P NC. apply pushed_name in P. assert (X := closes_iff label custom o x P NC).
  cbn [exec t_inner exec_fn]. unfold with_current. rewrite C. cbn [t_loc]. unfold exec_end. rewrite S.
  destruct custom.
  - destruct (text_eqb (fr_name x) (lit "begin:" ++ label)) eqn:E; split; intros H; try reflexivity.
    + destruct H. now apply X.
    + apply X in H. discriminate.
  - destruct (starts_with (label ++ [c_colon]) (fr_name x)) eqn:E; split; intros H; try reflexivity.
    + cbn. unfold add_out. now rewrite app_nil_r.
    + destruct H. now apply X.
    + apply X in H. discriminate.
Qed.
(** Outside all blocks, [end] always fails. *)
Lemma end_base n w label custom l s f r : current w s = Some (LTok (TFun (FEnd label custom)) l) ->
  sc_stack s = f :: r -> ~ In c_colon (fr_name f) ->
  exec (S n) w (LTok (TFun (FEnd label custom)) l) s = Err (tb l XE_EndWithoutBegin).
Proof.
  intros C S NC. cbn [exec t_inner exec_fn]. unfold with_current. rewrite C. cbn [t_loc]. unfold exec_end. rewrite S.
  destruct custom.
  - destruct (text_eqb (fr_name f) (lit "begin:" ++ label)) eqn:E; [|reflexivity]. apply text_eqb_eq in E. destruct NC. rewrite E.
    do 5 right. now left.
  - destruct (starts_with (label ++ [c_colon]) (fr_name f)) eqn:E; [|reflexivity]. apply starts_with_spec in E. destruct E as [q E].
    destruct NC. rewrite E. rewrite <- app_assoc. apply in_or_app. right. now left.
Qed.
Lemma kind_if o : starts_with (lit "if") (opener_name o) = true <-> is_test o.
Proof.
  destruct o as [l c|f|c]; cbn [is_test].
  - split; [discriminate|tauto].
  - split; [discriminate|tauto].
  - split; [tauto|]. intros _. apply cond_frame_if.
Qed.
Lemma else_exec n w l s x r o : current w s = Some (LTok (TFun FElse) l) ->
  sc_stack s = x :: r -> pushed_by o x ->
  (is_test o -> exec (S n) w (LTok (TFun FElse) l) s = Ok s) /\
  (~ is_test o -> exec (S n) w (LTok (TFun FElse) l) s = Err (tb l XE_ElseWithoutIf)).
Proof.
  intros C S P. apply pushed_name in P. assert (X := kind_if o). rewrite <- P in X.
  cbn [exec t_inner exec_fn]. unfold with_current. rewrite C. cbn [t_loc]. unfold exec_else. rewrite S.
  destruct (starts_with (lit "if") (fr_name x)); split; intros H; try reflexivity.
  - destruct H. now apply X.
  - apply X in H. discriminate.
Qed.

(** Whole templates. *)
Lemma end_mismatch h site a o lo b label custom le rest f r secs oa st vs ob st' : all_wf a -> all_wf b ->
  render_all false h site a (RState (map fr_vars (f :: r)) secs) = RDone oa st ->
  enters h site o (rs_scopes st) vs ->
  render_all false h site b (RState (vs :: rs_scopes st) (rs_secs st)) = RDone ob st' ->
  (custom = false -> ~ In c_colon label) -> ~ closes label custom o ->
  run (World h site (flat_map flat a ++ LTok (TFun (opener_fn o)) lo :: flat_map flat b ++ LTok (TFun (FEnd label custom)) le :: rest))
    (Scope 0 (f :: r) secs) = Err (tb le XE_EndWithoutBegin).
Proof.
  intros WA WB RA EN RB NC CL. set (te := LTok (TFun (FEnd label custom)) le).
  destruct (block_point h site a o lo b (te :: rest) f r secs oa st vs ob st' WA WB RA EN RB) as (n & x & new & s2 & _ & S2 & N & A & _).
  apply (A te rest _ (Some (lit "end")) eq_refl eq_refl).
  apply (end_exec n _ label custom le _ x (Frame (fr_name f) (fr_vars f ++ new) (fr_out f ++ oa)) r o).
  - subst s2. unfold current. cbn [set_idx sc_idx w_toks]. rewrite app_comm_cons, app_assoc, nth_error_app2; [|rewrite app_length; cbn; lia].
    rewrite app_length. cbn [length]. rewrite Nat.sub_diag. reflexivity.
  - subst s2. reflexivity.
  - now apply pushed_name.
  - exact NC.
  - exact CL.
Qed.
Lemma else_mismatch h site a o lo b le rest f r secs oa st vs ob st' : all_wf a -> all_wf b ->
  render_all false h site a (RState (map fr_vars (f :: r)) secs) = RDone oa st ->
  enters h site o (rs_scopes st) vs ->
  render_all false h site b (RState (vs :: rs_scopes st) (rs_secs st)) = RDone ob st' ->
  ~ is_test o ->
  run (World h site (flat_map flat a ++ LTok (TFun (opener_fn o)) lo :: flat_map flat b ++ LTok (TFun FElse) le :: rest))
    (Scope 0 (f :: r) secs) = Err (tb le XE_ElseWithoutIf).
Proof.
  intros WA WB RA EN RB CL. set (te := LTok (TFun FElse) le).
  destruct (block_point h site a o lo b (te :: rest) f r secs oa st vs ob st' WA WB RA EN RB) as (n & x & new & s2 & _ & S2 & N & A & _).
  apply (A te rest _ (Some (lit "else")) eq_refl eq_refl).
  apply (else_exec n _ le _ x (Frame (fr_name f) (fr_vars f ++ new) (fr_out f ++ oa) :: r) o).
  - subst s2. unfold current. cbn [set_idx sc_idx w_toks]. rewrite app_comm_cons, app_assoc, nth_error_app2; [|rewrite app_length; cbn; lia].
    rewrite app_length. cbn [length]. rewrite Nat.sub_diag. reflexivity.
  - subst s2. reflexivity.
  - now apply pushed_name.
  - exact CL.
Qed.
Lemma unclosed h site a o lo b f r secs oa st vs ob st' : all_wf a -> all_wf b ->
  render_all false h site a (RState (map fr_vars (f :: r)) secs) = RDone oa st ->
  enters h site o (rs_scopes st) vs ->
  render_all false h site b (RState (vs :: rs_scopes st) (rs_secs st)) = RDone ob st' ->
  match run (World h site (flat_map flat a ++ LTok (TFun (opener_fn o)) lo :: flat_map flat b)) (Scope 0 (f :: r) secs) with
  | Ok s => exists x f', sc_stack s = x :: f' :: r /\ pushed_by o x /\ exists label custom, o = OSection label custom
  | Err e => e = tb lo XE_UnexpectedEndOfFile /\ forall label custom, o <> OSection label custom
  | _ => False
  end.
Proof.
  intros WA WB RA EN RB.
  destruct (block_point h site a o lo b [] f r secs oa st vs ob st' WA WB RA EN RB) as (n & x & new & s2 & _ & S2 & N & _ & A).
  specialize (A eq_refl). rewrite app_nil_r in A. rewrite A. destruct o as [label custom|ff|c].
  - exists x. eexists. subst s2. split; [reflexivity|]. split; [now apply pushed_name|]. now exists label, custom.
  - split; [reflexivity|discriminate].
  - split; [reflexivity|discriminate].
Qed.

(** ** Pages with open blocks (C27) *)
Lemma phase_open pr toks b secs s : plugins_of plugin_ok toks -> ~ In c_colon (fr_name b) ->
  phase pr toks [b] secs = Ok s -> length (sc_stack s) <> 1 -> forall f r, sc_stack s = f :: r -> is_base f = false.
Proof.
  intros HP HB H L f r S. destruct (is_base f) eqn:E; [|reflexivity].
  assert (P := phase_based pr toks b secs s HP HB H). destruct P as [P _]. rewrite S in P.
  destruct (based_top_base b f r HB P E) as [-> _]. destruct L. now rewrite S.
Qed.

Lemma open_two_phases pr src toks root first b s : plugins_of plugin_ok toks -> ~ In c_colon (fr_name first) ->
  phase pr toks [first] [] = Ok s -> length (sc_stack s) > 1 ->
  two_phases pr src toks root first b = Err (TB src 0 0 XE_StackError).
Proof.
  intros P NC H L. unfold two_phases. rewrite H. cbn [bind].
  assert (O := phase_open pr toks first [] s P NC H ltac:(lia)).
  destruct (sc_stack s) as [|f r]; [reflexivity|]. now rewrite (O f r eq_refl).
Qed.
Lemma open_page pr e src p : plugins_of plugin_ok (page_tokens e p) -> ev_root e <> None -> leaves_open pr e p ->
  render_page pr e src p = Err (TB src 0 0 XE_StackError).
Proof.
  intros P R (b & f & s & B & NC & F & H & L). destruct (ev_root e) as [root|] eqn:E; [|now destruct R]. clear R. destruct p as [toks|name m]; cbn [render_page page_tokens page_frame] in *.
  - subst f. unfold process_html. rewrite E, B. cbn [ok_or bind]. now rewrite (open_two_phases pr src toks root b b s P NC H L).
  - destruct F as (v & V & ->). unfold process_markdown. rewrite E. cbn [ok_or bind]. destruct (ev_md e) as [t|] eqn:M; cbn [ok_or bind].
    + rewrite B, (md_value_any _ _ V). cbn [bind].
      now rewrite (open_two_phases pr src t root (add_var (lit "self") v b) b s P NC H L).
    + exfalso. unfold phase in H. destruct (pr_input pr); [|discriminate]. cbn in H. injection H as <-. cbn in L. lia.
Qed.
Lemma open_markdown pr src m b s : plugins_of plugin_ok (md_tokens m) -> pr_base pr = Some b -> ~ In c_colon (fr_name b) ->
  phase pr (md_tokens m) [b] [] = Ok s -> length (sc_stack s) > 1 ->
  preprocess_markdown pr src m = Err (TB src 0 0 XE_StackError).
Proof.
  intros P B NC H L. unfold preprocess_markdown. rewrite B, H. cbn [bind].
  assert (O := phase_open pr (md_tokens m) b [] s P NC H ltac:(lia)).
  destruct (sc_stack s) as [|f r]; [reflexivity|]. now rewrite (O f r eq_refl).
Qed.
(** A page that ends inside a block. *)
Lemma unclosed_page pr e src i b root a o lo body oa st vs ob st' : all_wf a -> all_wf body ->
  pr_input pr = Some i -> pr_base pr = Some b -> fr_name b = lit "base" -> ev_root e = Some root ->
  let toks := flat_map flat a ++ LTok (TFun (opener_fn o)) lo :: flat_map flat body in
  plugins_of plugin_ok toks ->
  render_all false (pr_host pr) i a (RState [fr_vars b] []) = RDone oa st ->
  enters (pr_host pr) i o (rs_scopes st) vs ->
  render_all false (pr_host pr) i body (RState (vs :: rs_scopes st) (rs_secs st)) = RDone ob st' ->
  process_html pr e src toks =
  Err (match o with OSection _ _ => TB src 0 0 XE_StackError | _ => tb lo XE_UnexpectedEndOfFile end).
Proof.
  intros WA WB HI HB IB HR toks P RA EN RB.
  assert (U := unclosed (pr_host pr) i a o lo body b [] [] oa st vs ob st' WA WB RA EN RB). fold toks in U.
  assert (NC : ~ In c_colon (fr_name b)).
  { rewrite IB. apply contains_char_false. reflexivity. }
  unfold process_html. rewrite HR, HB. cbn [ok_or bind].
  assert (PH : phase pr toks [b] [] = run (World (pr_host pr) i toks) (Scope 0 [b] [])) by (unfold phase; now rewrite HI).
  destruct (run (World (pr_host pr) i toks) (Scope 0 [b] [])) as [s|er|q|] eqn:E; try contradiction.
  - destruct U as (x & f' & S & _ & label & custom & ->).
    now rewrite (open_two_phases pr src toks root b b s P NC PH ltac:(rewrite S; cbn; lia)).
  - destruct U as [-> N]. unfold two_phases. rewrite PH. cbn [bind]. destruct o as [l c| |]; [now destruct (N l c)|reflexivity|reflexivity].
Qed.

(** A section of the root template that is never closed. *)
Definition C27_root : list ltoken :=
  [raw (lit "before"); LTok (TFun (FBegin (lit "s") true)) (Loc [] 1 1); raw (lit "after")].
Lemma unclosed_root : exists pr e src toks o,
  ev_root e = Some C27_root /\ process_html pr e src toks = Ok o /\ po_contents o = Some (enc (lit "after")).
Proof.
  exists (Processor (Host (fun _ => false) (fun t => t) None (fun _ => None)) (Some (NDir [] [] [])) (Some (Frame (lit "base") [] [])) false),
    (Env [] (Some C27_root) None), [], [], (POut (Some (enc (lit "after"))) None).
  now vm_compute.
Qed.

(** ** Conditionals (C23 to C25) *)
Lemma run_single h site i f r secs : well_formed i ->
  let w := World h site (flat i) in
  match render false h site i (RState (map fr_vars (f :: r)) secs) with
  | RDone o st => exists new, rs_scopes st = (fr_vars f ++ new) :: map fr_vars r /\
      run w (Scope 0 (f :: r) secs) =
      Ok (Scope (length (flat i)) (Frame (fr_name f) (fr_vars f ++ new) (fr_out f ++ o) :: r) (rs_secs st))
  | RStop e => run w (Scope 0 (f :: r) secs) = Err e
  | RPanic p => run w (Scope 0 (f :: r) secs) = Panic p
  | ROdd => True
  end.
Proof.
  intros WF w. assert (A := run_follows h site [i] f r secs (conj WF I)). cbn [flat_map] in A. rewrite app_nil_r in A. fold w in A.
  unfold render_all in A. cbn [rseq] in A. destruct (render false h site i (RState (map fr_vars (f :: r)) secs)); cbn [rthen] in A; try exact A.
  now rewrite app_nil_r in A.
Qed.

Lemma holds_safe c sc : ~ match holds c sc with Panic _ | OutOfFuel => True | _ => False end.
Proof.
  destruct c as [v|c a b]; cbn [holds]; [tauto|].
  destruct (eval_input a (frames sc)); cbn [ok_or bind]; [|tauto]. destruct (eval_input b (frames sc)); cbn [ok_or bind]; tauto.
Qed.
Lemma either_run h site l c yes no f r secs :
  run (World h site (either l c yes no)) (Scope 0 (f :: r) secs) =
  match holds c (map fr_vars (f :: r)) with
  | Ok b => Ok (Scope 5 (Frame (fr_name f) (fr_vars f) (fr_out f ++ enc (if b then yes else no)) :: r) secs)
  | Err e => Err (tb l e)
  | Panic p => Panic p
  | OutOfFuel => OutOfFuel
  end.
Proof.
  assert (A := run_single h site (IIfElse l c [ILeaf (raw yes)] l [ILeaf (raw no)] l) f r secs
    (conj (conj eq_refl I) (conj eq_refl I))).
  cbn zeta in A. change (flat (IIfElse l c [ILeaf (raw yes)] l [ILeaf (raw no)] l)) with (either l c yes no) in A.
  cbn [render] in A. change (rs_scopes (RState (map fr_vars (f :: r)) secs)) with (map fr_vars (f :: r)) in A.
  assert (T : exists x, holds c (map fr_vars (f :: r)) = x) by now eexists. destruct T as [x T].
  rewrite T in A |- *. change (length (either l c yes no)) with 5 in A.
  set (X := run _ _) in *. clearbody X. destruct x as [[|]|e|p|].
  - cbn in A. destruct A as (new & V & E). assert (N : new = []).
    { injection V as V. rewrite <- (app_nil_r (fr_vars f)) in V at 1. now apply app_inv_head in V. }
    subst new. rewrite E. rewrite !app_nil_r. reflexivity.
  - cbn in A. destruct A as (new & V & E). assert (N : new = []).
    { injection V as V. rewrite <- (app_nil_r (fr_vars f)) in V at 1. now apply app_inv_head in V. }
    subst new. rewrite E. rewrite !app_nil_r. reflexivity.
  - exact A.
  - destruct (holds_safe c (map fr_vars (f :: r))). now rewrite T.
  - destruct (holds_safe c (map fr_vars (f :: r))). now rewrite T.
Qed.

(** The branch that is not taken has no effect, provided it contains no blocks. *)
Lemma branch_choice h site l c yes le no l' f r secs b o st : all_wf yes -> all_wf no ->
  holds c (map fr_vars (f :: r)) = Ok b -> existsb is_block (if b then no else yes) = false ->
  render_all false h site (if b then yes else no) (RState ([] :: map fr_vars (f :: r)) secs) = RDone o st ->
  let toks := flat (IIfElse l c yes le no l') in
  run (World h site toks) (Scope 0 (f :: r) secs) =
  Ok (Scope (length toks) (Frame (fr_name f) (fr_vars f) (fr_out f ++ o) :: r) (rs_secs st)).
Proof.
  intros WY WN H B R toks.
  assert (A := run_single h site (IIfElse l c yes le no l') f r secs (conj WY WN)). cbn zeta in A. fold toks in A.
  cbn [render] in A. change (rs_scopes (RState (map fr_vars (f :: r)) secs)) with (map fr_vars (f :: r)) in A.
  rewrite H in A. unfold rscope in A. cbn [rs_scopes rs_secs negb andb] in A. unfold render_all in R.
  destruct b; rewrite ?B, R in A; cbn [rthen] in A; rewrite ?B, ?app_nil_r in A; destruct A as (new & V & E);
    cbn [rs_scopes rs_secs] in V, E;
    (assert (N : new = []); [cbn [map] in V; injection V as V; rewrite <- (app_nil_r (fr_vars f)) in V at 1; now apply app_inv_head in V|]);
    subst new; rewrite E, !app_nil_r; reflexivity.
Qed.
Lemma branch_alone h site l c yes l' f r secs b o st : all_wf yes ->
  holds c (map fr_vars (f :: r)) = Ok b ->
  (if b then render_all false h site yes (RState ([] :: map fr_vars (f :: r)) secs) = RDone o st
   else existsb is_block yes = false /\ o = [] /\ rs_secs st = secs) ->
  let toks := flat (IIf l c yes l') in
  run (World h site toks) (Scope 0 (f :: r) secs) =
  Ok (Scope (length toks) (Frame (fr_name f) (fr_vars f) (fr_out f ++ o) :: r) (rs_secs st)).
Proof.
  intros WY H R toks.
  assert (A := run_single h site (IIf l c yes l') f r secs WY). cbn zeta in A. fold toks in A.
  cbn [render] in A. change (rs_scopes (RState (map fr_vars (f :: r)) secs)) with (map fr_vars (f :: r)) in A.
  rewrite H in A. unfold rscope in A. cbn [rs_scopes rs_secs negb andb] in A. unfold render_all in R.
  destruct b.
  - rewrite R in A. destruct A as (new & V & E). cbn [rs_scopes rs_secs] in V, E.
    assert (N : new = []) by (cbn [map] in V; injection V as V; rewrite <- (app_nil_r (fr_vars f)) in V at 1; now apply app_inv_head in V).
    subst new; rewrite E, !app_nil_r; reflexivity.
  - destruct R as (B & -> & S). rewrite B in A. destruct A as (new & V & E). cbn [rs_scopes rs_secs] in V, E.
    assert (N : new = []) by (cbn [map] in V; injection V as V; rewrite <- (app_nil_r (fr_vars f)) in V at 1; now apply app_inv_head in V).
    subst new; rewrite E, !app_nil_r, S; reflexivity.
Qed.

(** ** ifdefined *)
Lemma holds_defined v st : exists b, holds (TDefined v) (map fr_vars st) = Ok b /\
  (b = true <-> exists x, get_variable v st = Some x /\ x <> VNull).
Proof.
  cbn [holds]. rewrite get_variable_vars. eexists. split; [reflexivity|].
  destruct (get_variable v st) as [x|].
  - destruct x; split; intros H; try discriminate; try reflexivity; try (eexists; split; [reflexivity|discriminate]).
    destruct H as (x & E & N). injection E as <-. now destruct N.
  - split; [discriminate|]. intros (x & E & _). discriminate.
Qed.

(** ** Comparisons *)
Lemma truncated_spec f : truncated f (f64_as_i32 f).
Proof.
  destruct f as [|neg|m e]; cbn [truncated f64_as_i32]; [reflexivity|now destruct neg|].
  exists (f64_trunc m e). split.
  - unfold clamped, saturate. destruct (Z.ltb_spec (f64_trunc m e) i32_min); [right; left; lia|].
    destruct (Z.ltb_spec i32_max (f64_trunc m e)); [right; right; lia|]. left. lia.
  - unfold f64_trunc. destruct (Z.leb_spec 0 e); [left; now split|right]. split; [lia|].
    assert (P : (0 < 2 ^ (- e))%Z) by (apply Z.pow_pos_nonneg; lia). set (d := (2 ^ (- e))%Z) in *.
    assert (Q : Z.abs (Z.quot m d) = Z.quot (Z.abs m) d) by (rewrite <- Z.quot_abs by lia; now rewrite (Z.abs_eq d) by lia).
    assert (A := Z.quot_rem' (Z.abs m) d). assert (C := Z.rem_bound_pos (Z.abs m) d ltac:(lia) P).
    split; [rewrite Q; nia|].
    destruct (Z.eq_dec (Z.quot m d) 0) as [E|E]; [now left|]. right.
    assert (M := Z.quot_rem' m d). assert (R := Z.rem_sign_nz m d). assert (B := Z.rem_bound_abs m d ltac:(lia)).
    destruct (Z.lt_trichotomy m 0) as [L|[L|L]].
    + assert (m ÷ d <= 0)%Z by (rewrite <- (Z.opp_involutive m), Z.quot_opp_l by lia; assert (0 <= (- m) ÷ d)%Z by (apply Z.quot_pos; lia); lia).
      rewrite (Z.sgn_neg m L). apply Z.sgn_neg. lia.
    + subst m. rewrite Z.quot_0_l in E by lia. lia.
    + assert (0 <= m ÷ d)%Z by (apply Z.quot_pos; lia). rewrite (Z.sgn_pos m L). apply Z.sgn_pos. lia.
Qed.
Lemma truncated_fun f z z' : truncated f z -> truncated f z' -> z = z'.
Proof.
  destruct f as [|neg|m e]; cbn [truncated]; [congruence|congruence|].
  intros (q & C & T) (q' & C' & T').
  assert (E : q = q').
  { destruct T as [[T1 T2]|[T1 [T2 T3]]], T' as [[U1 U2]|[U1 [U2 U3]]]; try lia.
    assert (P : (0 < 2 ^ (- e))%Z) by (apply Z.pow_pos_nonneg; lia). set (d := (2 ^ (- e))%Z) in *.
    assert (A1 : (Z.abs q < Z.abs q' + 1)%Z) by (apply (Z.mul_lt_mono_pos_r d); lia).
    assert (A2 : (Z.abs q' < Z.abs q + 1)%Z) by (apply (Z.mul_lt_mono_pos_r d); lia).
    assert (A : Z.abs q = Z.abs q') by lia. clear - A T3 U3. destruct T3 as [->|T3]; [lia|]. destruct U3 as [->|U3]; [lia|].
    rewrite <- (Z.abs_sgn q), <- (Z.abs_sgn q'). congruence. }
  subst q'. unfold clamped, i32_min, i32_max in *. lia.
Qed.

Definition to_input (o : operand) : input := match o with OpInt z => IInt z | OpStr s => IStr s end.
Lemma operand_eval st i x : operand_of st i x -> eval_input i st = Some (to_input x).
Proof.
  intros H. destruct H as [z|s|h p v0 s Hh Hp V F|h p v0 f z Hh Hp V F T]; cbn [eval_input to_input]; try reflexivity.
  - rewrite (proj2 (get_variable_iff h p st (VStr s) Hh Hp) (ex_intro _ v0 (conj V F))). reflexivity.
  - rewrite (proj2 (get_variable_iff h p st (VNum f) Hh Hp) (ex_intro _ v0 (conj V F))).
    now rewrite (truncated_fun f z (f64_as_i32 f) T (truncated_spec f)).
Qed.
Lemma eval_operand st i : (exists x, operand_of st i x) \/ (eval_input i st = None /\ exists v, i = IVar v).
Proof.
  destruct i as [v|s|z]; [|left; eexists; constructor|left; eexists; constructor].
  destruct (name_parts v) as (h & p & -> & Hh & Hp). cbn [eval_input].
  destruct (get_variable (dotted h p) st) as [x|] eqn:G.
  - apply (get_variable_iff h p st x Hh Hp) in G. destruct G as (v0 & V & F).
    destruct x; try (right; split; [reflexivity|now eexists]).
    + left. exists (OpInt (f64_as_i32 f)). now apply oo_var_num with v0 f; [..|apply truncated_spec].
    + left. exists (OpStr s). now apply oo_var_str with v0.
  - right. split; [reflexivity|now eexists].
Qed.
Lemma input_eq_spec x y : input_eq (to_input x) (to_input y) = true <-> x = y.
Proof.
  destruct x as [a|a], y as [b|b]; cbn.
  - rewrite Z.eqb_eq. split; [now intros ->|now injection 1].
  - split; discriminate.
  - split; discriminate.
  - rewrite text_eqb_eq. split; [now intros ->|now injection 1].
Qed.
Lemma cond_spec c x y : c <> CLe -> (cond c (to_input x) (to_input y) = true <-> compares c x y).
Proof.
  intros N. destruct c; cbn [cond compares]; try now destruct N.
  - apply input_eq_spec.
  - rewrite negb_true_iff, <- input_eq_spec. destruct (input_eq (to_input x) (to_input y)); intuition congruence.
  - destruct x as [a|a], y as [b|b]; cbn; try (split; [discriminate|tauto]). destruct (Z.compare_spec a b); split; try discriminate; try reflexivity; lia.
  - destruct x as [a|a], y as [b|b]; cbn; try (split; [discriminate|tauto]). destruct (Z.compare_spec a b); split; try discriminate; try reflexivity; lia.
  - destruct x as [a|a], y as [b|b]; cbn; try (split; [discriminate|tauto]). destruct (Z.compare_spec a b); split; try discriminate; try reflexivity; lia.
Qed.
Lemma holds_compare c a b x y st : operand_of st a x -> operand_of st b y ->
  holds (TCompare c a b) (map fr_vars st) = Ok (cond c (to_input x) (to_input y)).
Proof.
  intros A B. cbn [holds]. rewrite !eval_input_vars, (operand_eval _ _ _ A), (operand_eval _ _ _ B). reflexivity.
Qed.
Lemma compare_run h site l c a b yes no f r secs x y : c <> CLe ->
  operand_of (f :: r) a x -> operand_of (f :: r) b y ->
  exists t, (compares c x y -> t = yes) /\ (~ compares c x y -> t = no) /\
  run (World h site (either l (TCompare c a b) yes no)) (Scope 0 (f :: r) secs) =
  Ok (Scope 5 (Frame (fr_name f) (fr_vars f) (fr_out f ++ enc t) :: r) secs).
Proof.
  intros N A B. rewrite either_run, (holds_compare c a b x y (f :: r) A B).
  exists (if cond c (to_input x) (to_input y) then yes else no). assert (S := cond_spec c x y N).
  split; [|split; [|reflexivity]].
  - intros H. apply S in H. now rewrite H.
  - intros H. destruct (cond c (to_input x) (to_input y)); [|reflexivity]. destruct H. now apply S.
Qed.
(** An operand without a value is an error. *)
Lemma compare_undefined h site l c a b yes no f r secs : (forall x, ~ operand_of (f :: r) a x) \/ (forall x, ~ operand_of (f :: r) b x) ->
  exists v, (a = IVar v \/ b = IVar v) /\
  run (World h site (either l (TCompare c a b) yes no)) (Scope 0 (f :: r) secs) = Err (tb l (XE_UndefinedVariable v)).
Proof.
  intros H. rewrite either_run. cbn [holds]. rewrite !eval_input_vars.
  destruct (eval_operand (f :: r) a) as [[x X]|[X [v ->]]].
  - rewrite (operand_eval _ _ _ X). cbn [ok_or bind].
    destruct (eval_operand (f :: r) b) as [[y Y]|[Y [v ->]]].
    + exfalso. destruct H as [H|H]; [exact (H x X)|exact (H y Y)].
    + rewrite Y. exists v. split; [now right|reflexivity].
  - rewrite X. exists v. split; [now left|reflexivity].
Qed.
Lemma ifle_refuted : exists h site l f x y, operand_of [f] (IInt 1) x /\ operand_of [f] (IInt 1) y /\ compares CLe x y /\
  run (World h site (either l (TCompare CLe (IInt 1) (IInt 1)) (lit "yes") (lit "no"))) (Scope 0 [f] []) =
  Ok (Scope 5 [Frame (fr_name f) (fr_vars f) (enc (lit "no"))] []).
Proof.
  exists (Host (fun _ => false) (fun t => t) None (fun _ => None)), (NDir [] [] []), (Loc [] 1 1), (Frame (lit "base") [] []), (OpInt 1), (OpInt 1).
  split; [constructor|]. split; [constructor|]. split; [cbn; lia|]. now vm_compute.
Qed.
(** What [ifle] decides instead. *)
Lemma ifle_strict h site l a b yes no f r secs x y :
  operand_of (f :: r) a x -> operand_of (f :: r) b y ->
  exists t, (compares CLt x y -> t = yes) /\ (~ compares CLt x y -> t = no) /\
  run (World h site (either l (TCompare CLe a b) yes no)) (Scope 0 (f :: r) secs) =
  Ok (Scope 5 (Frame (fr_name f) (fr_vars f) (fr_out f ++ enc t) :: r) secs).
Proof.
  intros A B. rewrite either_run, (holds_compare CLe a b x y (f :: r) A B).
  change (cond CLe (to_input x) (to_input y)) with (cond CLt (to_input x) (to_input y)).
  exists (if cond CLt (to_input x) (to_input y) then yes else no). assert (S := cond_spec CLt x y ltac:(discriminate)).
  split; [|split; [|reflexivity]].
  - intros H. apply S in H. now rewrite H.
  - intros H. destruct (cond CLt (to_input x) (to_input y)); [|reflexivity]. destruct H. now apply S.
Qed.
Lemma defined_run h site l k p yes no f r secs : ~ In c_dot k -> Forall (fun x => ~ In c_dot x) p ->
  exists t, ((exists v0 v, visible k (f :: r) v0 /\ field v0 p v /\ v <> VNull) -> t = yes) /\
            (~ (exists v0 v, visible k (f :: r) v0 /\ field v0 p v /\ v <> VNull) -> t = no) /\
  run (World h site (either l (TDefined (dotted k p)) yes no)) (Scope 0 (f :: r) secs) =
  Ok (Scope 5 (Frame (fr_name f) (fr_vars f) (fr_out f ++ enc t) :: r) secs).
Proof.
  intros Hk Hp. rewrite either_run. destruct (holds_defined (dotted k p) (f :: r)) as (b & E & B). rewrite E.
  assert (X : b = true <-> exists v0 v, visible k (f :: r) v0 /\ field v0 p v /\ v <> VNull).
  { rewrite B. split.
    - intros (v & G & N). apply (get_variable_iff k p (f :: r) v Hk Hp) in G. destruct G as (v0 & V & F). now exists v0, v.
    - intros (v0 & v & V & F & N). exists v. split; [|exact N]. apply (get_variable_iff k p (f :: r) v Hk Hp). now exists v0. }
  exists (if b then yes else no). split; [|split; [|reflexivity]].
  - intros H. apply X in H. now rewrite H.
  - intros H. destruct b; [|reflexivity]. destruct H. now apply X.
Qed.

(** ** insert (C26) *)
Lemma insert_found n w l label s f r b : current w s = Some (LTok (TFun (FInsert label)) l) -> sc_stack s = f :: r ->
  first_binding label (sc_secs s) b -> exec (S n) w (LTok (TFun (FInsert label)) l) s =
  Ok (Scope (sc_idx s) (Frame (fr_name f) (fr_vars f) (fr_out f ++ b) :: r) (sc_secs s)).
Proof.
  intros C S F. apply assoc_iff in F. cbn [exec t_inner exec_fn]. unfold with_current. rewrite C. unfold exec_insert. rewrite S, F. reflexivity.
Qed.
Lemma insert_missing n w l label s : current w s = Some (LTok (TFun (FInsert label)) l) -> sc_stack s <> [] ->
  ~ In label (map fst (sc_secs s)) -> exec (S n) w (LTok (TFun (FInsert label)) l) s = Err (tb l (XE_UndefinedSection label)).
Proof.
  intros C S F. apply assoc_none in F. cbn [exec t_inner exec_fn]. unfold with_current. rewrite C. unfold exec_insert. rewrite F.
  now destruct (sc_stack s).
Qed.
(** Sections are only ever added at the end. *)
Lemma sections_grow n w t s s' : plugins_of plugin_ok (w_toks w) -> current w s = Some t -> sc_stack s <> [] ->
  exec n w t s = Ok s' -> exists more, sc_secs s' = sc_secs s ++ more.
Proof.
  intros P C S H. assert (B : sc_idx s <= length (w_toks w)).
  { unfold current in C. destruct (sc_idx s); [discriminate|]. assert (X := nth_error_Some (w_toks w) n0). rewrite C in X. apply X. discriminate. }
  assert (A := exec_ok False w P (fun F => match F with end) (fun F => match F with end) n t s C S B (fun F => match F with end)).
  rewrite H in A. cbn in A. destruct A as (_ & _ & _ & X). exact X.
Qed.
Lemma first_binding_app {A} k (l : list (text * A)) x more : first_binding k l x -> first_binding k (l ++ more) x.
Proof. intros (l1 & l2 & -> & N). exists l1, (l2 ++ more). split; [now rewrite <- app_assoc|exact N]. Qed.
Lemma first_section n w t s s' label b : plugins_of plugin_ok (w_toks w) -> current w s = Some t -> sc_stack s <> [] ->
  exec n w t s = Ok s' -> first_binding label (sc_secs s) b -> first_binding label (sc_secs s') b.
Proof. intros P C S H F. destruct (sections_grow n w t s s' P C S H) as [more ->]. now apply first_binding_app. Qed.
Lemma section_added (secs : list (text * bytes)) label b : ~ In label (map fst secs) -> first_binding label (secs ++ [(label, b)]) b.
Proof. intros N. now exists secs, []. Qed.

(** ** Loops over nothing (C22) *)
Lemma loop_nothing n w l f s vs : current w s = Some (LTok (TFun (FFor f)) l) ->
  for_values w f (sc_stack s) = Ok vs -> select f vs = [] ->
  exec (S n) w (LTok (TFun (FFor f)) l) s = Ok s.
Proof.
  intros C V S. cbn [exec t_inner exec_fn]. unfold with_current. rewrite C, V. cbn [map_err bind]. rewrite S. reflexivity.
Qed.
Definition no_host : host := Host (fun _ => false) (fun t => t) None (fun _ => None).
Definition C22_items : list item :=
  [IFor (Loc [] 1 1) (ForFn (lit "x") (lit "xs") SrcVar None None None false) [ILeaf (raw (lit "body"))] (Loc [] 1 9); ILeaf (raw (lit "rest"))].
Definition C23_items : list item :=
  [IIf (Loc [] 1 1) (TCompare CEq (IInt 1) (IInt 2)) [IIf (Loc [] 1 2) (TCompare CEq (IInt 1) (IInt 1)) [] (Loc [] 1 3); ILeaf (raw (lit "hidden"))] (Loc [] 1 9)].
Definition C22_base : frame := Frame (lit "base") [(lit "xs", VArr [])] [].
Lemma loop_nothing_refuted : all_wf C22_items /\
  render_all true no_host (NDir [] [] []) C22_items (RState [fr_vars C22_base] []) = RDone (enc (lit "rest")) (RState [fr_vars C22_base] []) /\
  run (World no_host (NDir [] [] []) (flat_map flat C22_items)) (Scope 0 [C22_base] []) = Err (TB [] 1 9 XE_EndWithoutBegin).
Proof. now vm_compute. Qed.
Lemma branches_refuted : all_wf C23_items /\
  render_all true no_host (NDir [] [] []) C23_items (RState [[]] []) = RDone [] (RState [[]] []) /\
  run (World no_host (NDir [] [] []) (flat_map flat C23_items)) (Scope 0 [Frame (lit "base") [] []] []) = Err (TB [] 1 9 XE_EndWithoutBegin).
Proof. now vm_compute. Qed.
Lemma section_recorded n w label l s x f r c : current w s = Some (LTok (TFun (FEnd label true)) l) ->
  sc_stack s = x :: f :: r -> pushed_by (OSection label c) x -> ~ In label (map fst (sc_secs s)) ->
  exists s', exec (S n) w (LTok (TFun (FEnd label true)) l) s = Ok s' /\ first_binding label (sc_secs s') (fr_out x).
Proof.
  intros C E P N. destruct (end_exec n w label true l s x f r (OSection label c) C E P ltac:(discriminate)) as [A _].
  eexists. split; [apply A; now exists c|]. cbn [sc_secs]. now apply section_added.
Qed.
