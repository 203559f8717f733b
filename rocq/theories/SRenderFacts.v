(** SRenderFacts.v -- the block structure with plugin functions that keep state (C96); as RenderFacts.v. *)

From Coq Require Import String List NArith ZArith Bool Lia.
From Verif Require Import Text Utf8 Json Base Lexer Syntax Parse Tree Interp Js State SpecTemplate SpecScope SpecRender SpecSRender.
From Verif Require Import JsFacts TextFacts CharFacts CallFacts ParseInv InterpFacts RenderFacts.
Import ListNotations.

Section SRender.
  Context {X : Type}.
  Variable beh : State.behaviour X.
  Variable does : plugin_fn -> loc -> scopes -> sections -> X -> X * res process_error (bytes * list (text * value)).
  Notation sx := (sexec beh).
  Notation rd w := (srender does false (w_host w) (w_input w)).
  Notation apt := (SpecSRender.apt does beh).
  Definition all_apt (l : list item) : Prop := fold_right (fun i P => apt i /\ P) True l.

  Lemma sleaf_exec n w t s x : is_leaf (t_inner t) = true -> sx (S n) w t s x = (x, exec (S n) w t s).
  Proof. intros L. cbn [sexec exec]. destruct t as [ti l]; cbn [t_inner t_loc] in *. destruct ti as [y|g|v]; try reflexivity. destruct g; try discriminate L; reflexivity. Qed.

  Definition sdrives (c : bool) (w : world) (n h : nat) (D : nat -> scope -> st X (xres scope)) : Prop :=
    forall k s t s1 x, length (sc_stack s) > h -> next_token w s = Some (t, s1) -> (c = true -> plain_name t) ->
    D (S k) s x = sbind (sx n w t s1) (D k) x.
  Lemma sdrives_any w n : sdrives false w n 0 (fun k => srun_all beh k n w).
  Proof. intros k s t s1 x _ N _. cbn. now rewrite N. Qed.
  Lemma sdrives_body w n h eof : sdrives false w n h (srun_block (sx n w) w h eof).
  Proof.
    intros k s t s1 x H N _. cbn [srun_block]. destruct (Nat.leb_spec (length (sc_stack s)) h); [lia|]. now rewrite N.
  Qed.
  Lemma sdrives_cond w n h eof : sdrives true w n h (fun k => srun_cond (sx n w) w h eof k true).
  Proof.
    intros k s t s1 x H N P. destruct (P eq_refl) as (nm & E & Q). cbn [srun_cond]. destruct (Nat.leb_spec (length (sc_stack s)) h); [lia|].
    rewrite N, E. unfold sbind at 1, bnd at 1, ret at 1. cbn [orb]. now rewrite Q.
  Qed.
  Lemma sbind_ok A B (m : st X (xres A)) (f : A -> st X (xres B)) x x1 a : m x = (x1, Ok a) -> sbind m f x = f a x1.
  Proof. intros E. unfold sbind, bnd. now rewrite E. Qed.
  Lemma sbind_err A B (m : st X (xres A)) (f : A -> st X (xres B)) x x1 e : m x = (x1, Err e) -> sbind m f x = (x1, Err e).
  Proof. intros E. unfold sbind, bnd. now rewrite E. Qed.
  Lemma sbind_panic A B (m : st X (xres A)) (f : A -> st X (xres B)) x x1 e : m x = (x1, Panic e) -> sbind m f x = (x1, Panic e).
  Proof. intros E. unfold sbind, bnd. now rewrite E. Qed.

  Definition sagrees (Z : X * xres scope) (r : X * rres) (K : X -> bytes -> rstate -> Prop) : Prop :=
    match snd r with
    | RDone o st => K (fst r) o st
    | RStop e => Z = (fst r, Err e)
    | RPanic p => Z = (fst r, Panic p)
    | ROdd => True
    end.
  Definition slanded (D : scope -> st X (xres scope)) (Z : X * xres scope) (f : frame) (r : list frame) (idx : nat) (x : X) (o : bytes) (st : rstate) : Prop :=
    exists new, rs_scopes st = (fr_vars f ++ new) :: map fr_vars r /\
      Z = D (Scope idx (Frame (fr_name f) (fr_vars f ++ new) (fr_out f ++ o) :: r) (rs_secs st)) x.
  Definition sgoes (w : world) (i : item) : Prop :=
    forall c n D h pre post s st f r k x,
    sdrives c w n h D -> (c = true -> calm i) -> depth i <= n -> w_toks w = pre ++ flat i ++ post -> sc_idx s = length pre ->
    sc_stack s = f :: r -> length r >= h -> rs_scopes st = map fr_vars (f :: r) -> rs_secs st = sc_secs s ->
    sagrees (D (count i + k) s x) (rd w i st x)
      (slanded (D k) (D (count i + k) s x) f r (length (pre ++ flat i))).
  Definition sgoes_all (w : world) (l : list item) : Prop :=
    forall c n D h pre post s st f r k x,
    sdrives c w n h D -> (c = true -> all_calm l) -> lmax depth l <= n -> w_toks w = pre ++ flat_map flat l ++ post -> sc_idx s = length pre ->
    sc_stack s = f :: r -> length r >= h -> rs_scopes st = map fr_vars (f :: r) -> rs_secs st = sc_secs s ->
    sagrees (D (lsum count l + k) s x) (srseq (rd w) l st x)
      (slanded (D k) (D (lsum count l + k) s x) f r (length (pre ++ flat_map flat l))).

  Lemma sgoes_list w l : Forall (fun i => apt i -> sgoes w i) l -> all_apt l -> sgoes_all w l.
  Proof.
    intros H. induction H as [|i l Hi Hl IH]; intros WF c0 n D h pre post s st f r k x HD HC HN HW HI HS HR HV HE.
    - cbn. exists []. split; [now rewrite app_nil_r|]. rewrite app_nil_r. f_equal. now apply scope_eta.
    - cbn in WF. destruct WF as [WFi WFl]. specialize (IH WFl).
      cbn [flat_map] in HW. rewrite lmax_cons in HN.
      assert (A := Hi WFi c0 n D h pre (flat_map flat l ++ post) s st f r (lsum count l + k) x HD (fun X => proj1 (HC X)) ltac:(lia)
        ltac:(rewrite HW; now rewrite <- !app_assoc) HI HS HR HV HE).
      rewrite lsum_cons. cbn [srseq]. rewrite <- Nat.add_assoc.
      destruct (rd w i st x) as [x1 [o st'|e|p|]]; unfold srthen, sagrees in *; cbn [fst snd] in *; try exact A.
      destruct A as (new & V & E).
      assert (B := IH c0 n D h (pre ++ flat i) post
        (Scope (length (pre ++ flat i)) (Frame (fr_name f) (fr_vars f ++ new) (fr_out f ++ o) :: r) (rs_secs st')) st'
        (Frame (fr_name f) (fr_vars f ++ new) (fr_out f ++ o)) r k x1 HD (fun X => proj2 (HC X)) ltac:(lia)
        ltac:(rewrite HW; now rewrite <- !app_assoc) eq_refl eq_refl HR ltac:(cbn; exact V) eq_refl).
      fold (srseq (rd w)). rewrite E. unfold sagrees in B.
      destruct (srseq (rd w) l st' x1) as [x2 [o' st2|e|p|]]; cbn [fst snd] in *; try exact B.
      destruct B as (new2 & V2 & E2). cbn [fr_vars fr_name fr_out] in V2, E2.
      exists (new ++ new2). rewrite !app_assoc in *. split; [exact V2|]. cbn [flat_map]. rewrite E2. now rewrite <- !app_assoc.
  Qed.

  Lemma sleaf_called i t : apt i -> calm i -> is_block i = false -> flat i = [t] ->
    exists nm, token_fn_name t = Ok nm /\ is_name nm (lit "else") = false /\ is_name nm (lit "end") = false.
  Proof.
    intros WF CM B F. destruct i; try discriminate B; cbn in F; injection F as <-.
    - apply (leaf_called (ILeaf t0) t0); [exact WF|exact Logic.I|reflexivity|reflexivity].
    - destruct CM as (nm & E & N1 & N2). exists (Some nm). cbn. rewrite E. split; [reflexivity|].
      split; now apply text_eqb_neq.
  Qed.
  Lemma sskip_leaves w n h eof l : existsb is_block l = false -> all_apt l -> all_calm l ->
    forall pre post s k x, w_toks w = pre ++ flat_map flat l ++ post -> sc_idx s = length pre -> length (sc_stack s) = S h ->
    srun_cond (sx n w) w h eof (length (flat_map flat l) + k) false s x =
    srun_cond (sx n w) w h eof k false (set_idx (length (pre ++ flat_map flat l)) s) x.
  Proof.
    induction l as [|i l IH]; intros B WF CM pre post s k x HW HI HS.
    - cbn. rewrite app_nil_r. rewrite <- HI. now destruct s.
    - cbn in B. apply orb_false_iff in B. destruct B as [Bi Bl]. cbn in WF. destruct WF as [Wi Wl], CM as [Ci Cl].
      destruct (leaf_flat i Bi) as [t Ft]. cbn [flat_map] in *. rewrite Ft in *.
      destruct (sleaf_called i t Wi Ci Bi Ft) as (nm & E & N1 & N2).
      change (([t] ++ flat_map flat l) ++ post) with (t :: flat_map flat l ++ post) in HW.
      destruct (next_at w s pre t _ HW HI) as [NT _].
      change (length ([t] ++ flat_map flat l) + k) with (S (length (flat_map flat l) + k)). cbn [srun_cond].
      destruct (Nat.leb_spec (length (sc_stack s)) h); [lia|]. rewrite NT, E. rewrite (sbind_ok _ _ _ _ x x nm eq_refl). cbn [orb].
      rewrite N1, N2. cbn [orb andb].
      rewrite (IH Bl Wl Cl (pre ++ [t]) post); [|rewrite HW; now rewrite <- app_assoc|cbn; rewrite app_length; cbn; lia|exact HS].
      f_equal. unfold set_idx. cbn. f_equal. now rewrite <- app_assoc.
  Qed.

  Lemma sgoes_leaf w t : apt (ILeaf t) -> sgoes w (ILeaf t).
  Proof.
    intros WF c0 n D h pre post s st f r k x HD HC HN HW HI HS HR HV HE. cbn [count flat depth srender] in *.
    destruct (next_at w s pre t post HW HI) as [NT C].
    destruct (sleaf_called (ILeaf t) t WF I eq_refl eq_refl) as (nm & E1 & E2 & _).
    cbn [Nat.add]. rewrite (HD k s t _ x ltac:(rewrite HS; cbn; lia) NT (fun _ => ex_intro _ nm (conj E1 E2))).
    destruct n as [|n]; [lia|]. assert (L := sleaf_exec n w t (set_idx (S (length pre)) s) x WF). rewrite (leaf_exec n w t _ f r WF C HS) in L.
    cbn [sc_stack sc_secs set_idx] in L. rewrite HV, HE. rewrite HS in L. unfold sagrees. cbn [fst snd].
    destruct (leaf_effect _ _ _ _ _) as [[o new]|e|p|]; cbn [reffect]; [|now apply sbind_err|now apply sbind_panic|exact I].
    exists new. rewrite HV, HE. split; [reflexivity|]. rewrite (sbind_ok _ _ _ _ _ _ _ L). unfold upd. cbn. rewrite app_length. cbn. now rewrite Nat.add_1_r.
  Qed.
  Lemma sgoes_plugin w l p b : apt (IPlugin l p b) -> sgoes w (IPlugin l p b).
  Proof.
    intros WF c0 n D h pre post s st f r k x HD HC HN HW HI HS HR HV HE. cbn [count flat depth srender] in *.
    destruct (next_at w s pre _ post HW HI) as [NT C].
    assert (NM : c0 = true -> plain_name (LTok (TFun (FPlugin p)) l)).
    { intros Q. destruct (sleaf_called (IPlugin l p b) _ WF (HC Q) eq_refl eq_refl) as (nm & E1 & E2 & _). now exists nm. }
    cbn [Nat.add]. rewrite (HD k s _ _ x ltac:(rewrite HS; cbn; lia) NT NM).
    destruct n as [|n]; [lia|].
    assert (L : sx (S n) w (LTok (TFun (FPlugin p)) l) (set_idx (S (length pre)) s) x = beh p l (set_idx (S (length pre)) s) x).
    { cbn [sexec t_inner sexec_fn]. unfold swith_current. now rewrite C. }
    rewrite (WF l (set_idx (S (length pre)) s) f r x HS) in L.
    cbn [sc_stack sc_secs set_idx] in L. rewrite HV, HE. rewrite HS in L.
    destruct (does p l _ _ x) as [x1 [[o new]|e|q|]]; unfold sagrees; cbn [fst snd reffect]; [|now apply sbind_err|now apply sbind_panic|exact I].
    exists new. rewrite HV, HE. split; [reflexivity|]. rewrite (sbind_ok _ _ _ _ _ _ _ L). cbn. rewrite app_length. cbn. now rewrite Nat.add_1_r.
  Qed.
  Lemma sgoes_section w l label custom body record l' :
    sgoes_all w body -> sgoes w (ISection l label custom body record l').
  Proof.
    intros HB c0 n D h pre post s st f r k x HD HC HN HW HI HS HR HV HE. cbn [count flat depth srender] in *.
    set (tb := LTok (TFun (FBegin label custom)) l) in *. set (te := LTok (TFun (section_end label record)) l') in *.
    assert (W1 : w_toks w = pre ++ tb :: (flat_map flat body ++ [te]) ++ post) by exact HW.
    destruct (next_at w s pre tb _ W1 HI) as [NT C].
    assert (PB : plain_name tb) by now apply plain_fn with (lit "begin").
    assert (PE : plain_name te) by (unfold te, section_end; destruct record; now apply plain_fn with (lit "end")).
    change (2 + lsum count body + k) with (S (S (lsum count body + k))).
    rewrite (HD (S (lsum count body + k)) s tb _ x ltac:(rewrite HS; cbn; lia) NT (fun _ => PB)).
    destruct n as [|n]; [assert (Q := lmax_pos depth body); lia|].
    assert (EB : sx (S n) w tb (set_idx (S (length pre)) s) x =
      (x, @Ok tbe scope (push_frame (new_frame (lit "begin:" ++ label)) (set_idx (S (length pre)) s)))) by reflexivity.
    rewrite (sbind_ok _ _ _ _ _ _ _ EB).
    set (nf := new_frame (lit "begin:" ++ label)) in *. set (s1 := push_frame nf (set_idx (S (length pre)) s)) in *.
    replace (S (lsum count body + k)) with (lsum count body + S k) by lia.
    assert (A := HB c0 (S n) D h (pre ++ [tb]) ([te] ++ post) s1 (RState ([] :: rs_scopes st) (rs_secs st)) nf (f :: r) (S k) x
      HD HC HN ltac:(rewrite W1; now rewrite <- !app_assoc) ltac:(cbn; rewrite app_length; cbn; lia)
      ltac:(cbn; now rewrite HS) ltac:(cbn; lia) ltac:(cbn; now rewrite HV) ltac:(cbn; exact HE)).
    unfold srscope. destruct (srseq _ body _ x) as [x1 [o st'|e|p|]]; unfold sagrees in *; cbn [fst snd] in *; try exact A.
    destruct A as (new & V & E). rewrite E. cbn [fr_name fr_vars fr_out nf new_frame app] in *.
    set (s2 := Scope _ _ _).
    assert (W2 : w_toks w = (pre ++ tb :: flat_map flat body) ++ te :: post) by (rewrite W1; now rewrite <- !app_assoc).
    assert (I2 : sc_idx s2 = length (pre ++ tb :: flat_map flat body)) by (cbn; now rewrite <- app_assoc).
    destruct (next_at w s2 _ te _ W2 I2) as [NT2 C2].
    rewrite (HD k s2 te _ x1 ltac:(cbn; lia) NT2 (fun _ => PE)).
    unfold slanded. cbn [rs_scopes rs_secs].
    assert (Q : sx (S n) w te (set_idx (S (length (pre ++ tb :: flat_map flat body))) s2) x1 =
      (x1, Ok (Scope (S (length (pre ++ tb :: flat_map flat body))) (add_out o f :: r) (rs_secs st' ++ if record then [(label, o)] else [])))).
    { cbn [sexec]. unfold te at 1. cbn [t_inner]. unfold section_end. destruct record; cbn [sexec_fn]; unfold ret; f_equal; cbn [exec_fn]; unfold with_current; rewrite C2; unfold exec_end; cbn [sc_stack s2 set_idx fr_name fr_out].
      - rewrite text_eqb_refl. reflexivity.
      - change (starts_with (lit "begin" ++ [c_colon]) (lit "begin:" ++ label)) with (starts_with (lit "begin:") (lit "begin:" ++ label)).
        assert (Q : starts_with (lit "begin:") (lit "begin:" ++ label) = true) by (apply starts_with_spec; now exists label).
        rewrite Q. cbn. now rewrite app_nil_r. }
    rewrite (sbind_ok _ _ _ _ _ _ _ Q). exists []. rewrite app_nil_r. split; [exact HV|]. f_equal. f_equal.
    rewrite cons_app_length. rewrite !cons_app_length. rewrite !app_assoc, cons_app_length, app_nil_r. reflexivity.
  Qed.

  Lemma sloop_goes w n body l' pre post eof name f0 :
    sgoes_all w body -> lmax depth body <= n -> 
    w_toks w = pre ++ flat_map flat body ++ LTok (TFun (FEnd (lit "for") false)) l' :: post ->
    f0 = srseq (rd w) body ->
    forall vs s st f r x, sc_stack s = f :: r -> rs_scopes st = map fr_vars (f :: r) -> rs_secs st = sc_secs s ->
    sagrees (sfor_loop (sx n w) w name (length pre) eof vs s x) (srseq (fun v => srscope [(name, v)] f0) vs st x)
      (fun x' o st' => rs_scopes st' = map fr_vars (f :: r) /\ sfor_loop (sx n w) w name (length pre) eof vs s x =
         (x', Ok (Scope (match vs with [] => sc_idx s | _ => S (length (pre ++ flat_map flat body)) end) (add_out o f :: r) (rs_secs st')))).
  Proof.
    intros HB HN HW ->. set (te := LTok _ l') in *.
    induction vs as [|v vs IH]; intros s st f r x HS HV HE; cbn [srseq sfor_loop].
    - cbn. split; [exact HV|]. unfold ret. f_equal. f_equal. unfold add_out. rewrite app_nil_r. rewrite HE. destruct s, f; cbn in *; now subst.
    - set (nf := add_var name v (new_frame (lit "for:" ++ name))). 
      change (length (sc_stack (set_idx (length pre) s))) with (length (sc_stack s)).
      assert (K : exists k', S (length (w_toks w)) = lsum count body + S k').
      { exists (length (w_toks w) - lsum count body). assert (Q := lsum_flat body). rewrite HW. rewrite !app_length. cbn. lia. }
      destruct K as (k' & K). rewrite K.
      assert (A := HB false n (srun_block (sx n w) w (length (sc_stack s)) eof) (length (sc_stack s)) pre (te :: post)
        (push_frame nf (set_idx (length pre) s)) (RState ([(name, v)] :: rs_scopes st) (rs_secs st)) nf (sc_stack s) (S k') x
        (sdrives_body _ _ _ _) ltac:(discriminate) HN HW eq_refl eq_refl ltac:(lia) ltac:(cbn; now rewrite HV, HS) HE).
      unfold srscope at 1. destruct (srseq (rd w) body _ x) as [x1 [o st'|e|p|]]; unfold srthen, sagrees in A |- *; cbn [fst snd] in *; try exact I;
        [|now apply sbind_err|now apply sbind_panic].
      destruct A as (new & V & E). cbn [rs_secs fr_name fr_vars fr_out nf add_var new_frame app] in *.
      set (s2 := Scope (length (pre ++ flat_map flat body)) _ _) in *.
      assert (W2 : w_toks w = (pre ++ flat_map flat body) ++ te :: post) by (rewrite HW; now rewrite <- !app_assoc).
      destruct (next_at w s2 _ te _ W2 eq_refl) as [NT2 C2].
      rewrite (sdrives_body w n (length (sc_stack s)) eof k' s2 te _ x1 ltac:(cbn; lia) NT2 ltac:(discriminate)) in E.
      destruct n as [|n]; [assert (Q := lmax_pos depth body); lia|].
      assert (Q : sx (S n) w te (set_idx (S (length (pre ++ flat_map flat body))) s2) x1 =
        (x1, Ok (Scope (S (length (pre ++ flat_map flat body))) (add_out o f :: r) (rs_secs st')))).
      { cbn [sexec]. unfold te at 1. cbn [t_inner sexec_fn]. unfold ret. f_equal. cbn [exec_fn]. unfold with_current. rewrite C2. unfold exec_end. cbn [sc_stack s2 set_idx fr_name fr_out].
        change (starts_with (lit "for" ++ [c_colon]) (lit "for:" ++ name)) with (starts_with (lit "for:") (lit "for:" ++ name)).
        assert (Q : starts_with (lit "for:") (lit "for:" ++ name) = true) by (apply starts_with_spec; now exists name).
        rewrite Q. unfold output. cbn [set_stack sc_stack]. rewrite HS. reflexivity. }
      rewrite (sbind_ok _ _ _ _ _ _ _ Q) in E.
      set (s3 := Scope (S (length (pre ++ flat_map flat body))) _ _) in *.
      assert (R : srun_block (sx (S n) w) w (length (sc_stack s)) eof k' s3 x1 = (x1, Ok s3)).
      { destruct k'; cbn [srun_block]; (destruct (Nat.leb_spec (length (sc_stack s3)) (length (sc_stack s))); [reflexivity|]; rewrite HS in *; cbn in *; lia). }
      rewrite R in E. rewrite (sbind_ok _ _ _ _ _ _ _ E).
      assert (IH' := IH s3 (RState (rs_scopes st) (rs_secs st')) (add_out o f) r x1 eq_refl ltac:(cbn; exact HV) eq_refl).
      fold (srseq (fun v => srscope [(name, v)] (srseq (rd w) body))). unfold sagrees in IH'.
      match goal with |- context [srseq ?a vs ?b x1] => destruct (srseq a vs b x1) as [x2 [o2 st2|e|p|]] end; cbn [fst snd] in *; try exact IH'.
      destruct IH' as [V2 E2]. split; [exact V2|]. rewrite E2. unfold add_out at 1 2. cbn [fr_name fr_vars fr_out]. unfold add_out. rewrite app_assoc.
      destruct vs; reflexivity.
  Qed.
  Lemma sgoes_for w l ff body l' : sgoes_all w body -> sgoes w (IFor l ff body l').
  Proof.
    intros HB c0 n D h pre post s st f r k x HD HC HN HW HI HS HR HV HE. cbn [count flat depth srender] in *.
    set (tf := LTok (TFun (FFor ff)) l) in *. set (te := LTok (TFun (FEnd (lit "for") false)) l') in *.
    assert (W1 : w_toks w = pre ++ tf :: (flat_map flat body ++ [te]) ++ post) by exact HW.
    destruct (next_at w s pre tf _ W1 HI) as [NT C].
    cbn [Nat.add]. rewrite (HD k s tf _ x ltac:(rewrite HS; cbn; lia) NT ltac:(intros _; now apply plain_fn with (lit "for"))).
    destruct n as [|n]; [lia|].
    assert (L : sx (S n) w tf (set_idx (S (length pre)) s) x =
      sbind (ret (map_err (tb l) (for_values w ff (sc_stack s)))) (fun vs => sfor_loop (sx n w) w (ff_var ff) (S (length pre)) (tb l XE_UnexpectedEndOfFile) (select ff vs) (set_idx (S (length pre)) s)) x).
    { cbn [sexec]. change (t_inner tf) with (TFun (FFor ff)). cbn [sexec_fn]. unfold swith_current. now rewrite C. }
    rewrite HV, (for_values_vars (w_host w) (w_input w) (w_toks w) ff (f :: r)). rewrite <- HS.
    replace (World (w_host w) (w_input w) (w_toks w)) with w by now destruct w.
    destruct (for_values w ff (sc_stack s)) as [vs|e|p|]; unfold sagrees; cbn [map_err fst snd] in *; [|apply sbind_err; exact L|apply sbind_panic; exact L|exact I].
    rewrite (sbind_ok _ _ _ _ _ _ _ eq_refl) in L.
    destruct (select ff vs) as [|v vs']; [exact I|].
    assert (A := sloop_goes w n body l' (pre ++ [tf]) post (tb l XE_UnexpectedEndOfFile) (ff_var ff) _ HB ltac:(lia)
       ltac:(rewrite W1; now rewrite <- !app_assoc) eq_refl (v :: vs') (set_idx (S (length pre)) s) st f r x HS HV HE).
    rewrite app_length in A. cbn [length] in A. rewrite Nat.add_1_r in A. rewrite <- L in A. unfold sagrees in A.
    match goal with |- context [srseq ?a (v :: vs') ?b x] => destruct (srseq a (v :: vs') b x) as [x2 [o2 st2|e|p|]] end; cbn [fst snd] in *;
      try exact I; [|now apply sbind_err|now apply sbind_panic].
    destruct A as [V E]. exists []. rewrite app_nil_r. split; [exact V|]. rewrite (sbind_ok _ _ _ _ _ _ _ E).
    f_equal. f_equal. rewrite !app_length. cbn. rewrite !app_length. cbn. lia.
  Qed.

  (** ** Conditionals *)
  Lemma scond_done ex w h eof k b s (x : X) : length (sc_stack s) <= h -> srun_cond ex w h eof k b s x = (x, Ok s).
  Proof. intros L. destruct k; cbn [srun_cond]; (destruct (Nat.leb_spec (length (sc_stack s)) h); [reflexivity|lia]). Qed.
  Lemma scond_end w n eof pre l' c post s y f r b k x :
    w_toks w = pre ++ LTok (TFun (FEnd (test_name c) false)) l' :: post -> sc_idx s = length pre ->
    sc_stack s = y :: f :: r -> fr_name y = cond_frame c ->
    srun_cond (sx (S n) w) w (length (f :: r)) eof (S k) b s x =
    (x, Ok (Scope (S (length pre)) (add_out (fr_out y) f :: r) (sc_secs s))).
  Proof.
    intros W I S N. destruct (next_at w s pre _ post W I) as [NT C]. cbn [srun_cond].
    destruct (Nat.leb_spec (length (sc_stack s)) (length (f :: r))) as [L|L]; [rewrite S in L; cbn in L; lia|].
    rewrite NT. rewrite (sbind_ok _ _ _ _ x x (Some (lit "end")) eq_refl). cbn [is_name].
    change (text_eqb (lit "end") (lit "end")) with true. cbn [orb].
    cbn [sc_stack set_idx]. rewrite S. change (length (y :: f :: r)) with (Datatypes.S (length (f :: r))). rewrite Nat.eqb_refl.
    cbn [andb]. rewrite orb_true_r.
    assert (L2 : sx (Datatypes.S n) w (LTok (TFun (FEnd (test_name c) false)) l') (set_idx (Datatypes.S (length pre)) s) x =
      (x, Ok (Scope (Datatypes.S (length pre)) (add_out (fr_out y) f :: r) (sc_secs s)))).
    { cbn [sexec t_inner sexec_fn]. unfold ret. f_equal. cbn [exec_fn]. unfold with_current. rewrite C. unfold exec_end.
      cbn [sc_stack set_idx]. rewrite S, N, cond_frame_name. unfold output. cbn [set_stack sc_stack map_err]. reflexivity. }
    rewrite (sbind_ok _ _ _ _ _ _ _ L2).
    apply scond_done. cbn. lia.
  Qed.
  Lemma scond_else w n eof pre le c post s y r b k x :
    w_toks w = pre ++ LTok (TFun FElse) le :: post -> sc_idx s = length pre ->
    sc_stack s = y :: r -> fr_name y = cond_frame c ->
    srun_cond (sx (S n) w) w (length r) eof (S k) b s x =
    srun_cond (sx (S n) w) w (length r) eof k (negb b) (set_idx (S (length pre)) s) x.
  Proof.
    intros W I S N. destruct (next_at w s pre _ post W I) as [NT C]. cbn [srun_cond].
    destruct (Nat.leb_spec (length (sc_stack s)) (length r)) as [L|L]; [rewrite S in L; cbn in L; lia|].
    rewrite NT. rewrite (sbind_ok _ _ _ _ x x (Some (lit "else")) eq_refl). cbn [is_name].
    change (text_eqb (lit "else") (lit "else")) with true. change (text_eqb (lit "else") (lit "end")) with false. cbn [orb].
    cbn [sc_stack set_idx]. rewrite S. change (length (y :: r)) with (Datatypes.S (length r)). rewrite Nat.eqb_refl.
    cbn [andb]. rewrite orb_true_r.
    assert (L2 : sx (Datatypes.S n) w (LTok (TFun FElse) le) (set_idx (Datatypes.S (length pre)) s) x = (x, Ok (set_idx (Datatypes.S (length pre)) s))).
    { cbn [sexec t_inner sexec_fn]. unfold ret. f_equal. cbn [exec_fn]. unfold with_current. rewrite C. unfold exec_else.
      cbn [sc_stack set_idx]. rewrite S, N, cond_frame_if. reflexivity. }
    now rewrite (sbind_ok _ _ _ _ _ _ _ L2).
  Qed.
  Lemma scond_enter n w l c s f r x : current w s = Some (LTok (TFun (test_fn c)) l) -> sc_stack s = f :: r ->
    sx (S n) w (LTok (TFun (test_fn c)) l) s x =
    match holds c (map fr_vars (f :: r)) with
    | Ok b => srun_cond (sx n w) w (length (f :: r)) (tb l XE_UnexpectedEndOfFile) (S (length (w_toks w))) b
                (push_frame (new_frame (cond_frame c)) s) x
    | Err e => (x, Err (tb l e))
    | Panic p => (x, Panic p)
    | OutOfFuel => (x, OutOfFuel)
    end.
  Proof.
    intros C S. cbn [sexec t_inner]. destruct c as [v|c a b]; cbn [test_fn sexec_fn holds]; unfold swith_current; cbn [test_fn] in C; rewrite C; cbn [t_loc].
    - rewrite get_variable_vars. rewrite S. destruct (get_variable v (f :: r)) as [y|]; [|reflexivity]. now destruct y.
    - rewrite !eval_input_vars. rewrite S. destruct (eval_input a (f :: r)) as [i|]; cbn [ok_or bind]; [|reflexivity].
      rewrite (sbind_ok _ _ _ _ x x i eq_refl).
      destruct (eval_input b (f :: r)) as [j|]; cbn [ok_or bind]; [|reflexivity]. now rewrite (sbind_ok _ _ _ _ x x j eq_refl).
  Qed.
  Lemma sbranch_taken w n c body pre post s y f r st k x : sgoes_all w body -> all_calm body -> lmax depth body <= n ->
    w_toks w = pre ++ flat_map flat body ++ post -> sc_idx s = length pre -> sc_stack s = y :: f :: r ->
    y = new_frame (cond_frame c) -> rs_scopes st = map fr_vars (f :: r) -> rs_secs st = sc_secs s -> forall eof,
    sagrees (srun_cond (sx n w) w (length (f :: r)) eof (lsum count body + k) true s x)
      (srscope [] (srseq (rd w) body) st x)
      (fun x' o st' => rs_scopes st' = map fr_vars (f :: r) /\ exists y, fr_name y = cond_frame c /\ fr_out y = o /\
        srun_cond (sx n w) w (length (f :: r)) eof (lsum count body + k) true s x =
        srun_cond (sx n w) w (length (f :: r)) eof k true (Scope (length (pre ++ flat_map flat body)) (y :: f :: r) (rs_secs st')) x').
  Proof.
    intros HB CM HN HW HI HS HX HV HE eof.
    assert (A := HB true n _ (length (f :: r)) pre post s (RState ([] :: rs_scopes st) (rs_secs st)) y (f :: r) k x
      (sdrives_cond w n (length (f :: r)) eof) (fun _ => CM) HN HW HI HS ltac:(lia) ltac:(cbn [rs_scopes]; rewrite HV, HX; reflexivity) HE).
    unfold srscope. unfold sagrees in *. destruct (srseq _ body _ x) as [x1 [o st'|e|p|]]; cbn [fst snd] in *; try exact A.
    destruct A as (new & V & E). cbn [rs_scopes rs_secs]. split; [exact HV|].
    exists (Frame (fr_name y) (fr_vars y ++ new) (fr_out y ++ o)). rewrite E. subst y. repeat split.
  Qed.
  Lemma sgoes_if w l c yes l' : all_apt yes -> all_calm yes -> sgoes_all w yes -> sgoes w (IIf l c yes l').
  Proof.
    intros WF CM HB c0 n D h pre post s st f r k x HD HC HN HW HI HS HR HV HE. cbn [count flat depth srender] in *.
    set (ti := LTok (TFun (test_fn c)) l) in *. set (te := LTok (TFun (FEnd (test_name c) false)) l') in *.
    assert (W1 : w_toks w = pre ++ ti :: (flat_map flat yes ++ [te]) ++ post) by exact HW.
    assert (W2 : w_toks w = (pre ++ [ti]) ++ flat_map flat yes ++ te :: post) by (rewrite W1; now rewrite <- !app_assoc).
    destruct (next_at w s pre ti _ W1 HI) as [NT C].
    cbn [Nat.add]. rewrite (HD k s ti _ x ltac:(rewrite HS; cbn; lia) NT ltac:(intros _; apply test_plain)).
    destruct n as [|n]; [lia|]. assert (L := scond_enter n w l c _ f r x C HS). fold ti in L. rewrite HV.
    destruct n as [|n]; [assert (Q := lmax_pos depth yes); lia|]. unfold sagrees.
    destruct (holds c (map fr_vars (f :: r))) as [[|]|e|p|]; cbn [fst snd]; [| |now apply sbind_err|exact I|exact I].
    - assert (K : exists k', S (length (w_toks w)) = lsum count yes + S k').
      { exists (length (w_toks w) - lsum count yes). assert (Q := lsum_flat yes). rewrite W1. rewrite !app_length. cbn. rewrite !app_length. lia. }
      destruct K as (k' & K). rewrite K in L.
      assert (A := sbranch_taken w (S n) c yes (pre ++ [ti]) (te :: post) (push_frame (new_frame (cond_frame c)) (set_idx (S (length pre)) s))
        _ f r st (S k') x HB CM ltac:(lia) W2 ltac:(cbn; rewrite app_length; cbn; lia) ltac:(cbn; now rewrite HS) eq_refl HV HE (tb l XE_UnexpectedEndOfFile)).
      rewrite <- L in A. unfold sagrees in A.
      destruct (srscope _ _ _ x) as [x1 [o st'|e|p|]]; cbn [fst snd] in *; try exact I; [|now apply sbind_err|now apply sbind_panic].
      destruct A as (V & y & Y1 & Y2 & E).
      rewrite (scond_end w n _ ((pre ++ [ti]) ++ flat_map flat yes) l' c post (Scope (length ((pre ++ [ti]) ++ flat_map flat yes)) (y :: f :: r) (rs_secs st')) y f r true k' x1 ltac:(rewrite W2; now rewrite <- !app_assoc) eq_refl eq_refl Y1) in E.
      rewrite (sbind_ok _ _ _ _ _ _ _ E). cbn [sc_secs]. exists []. rewrite app_nil_r. split; [exact V|]. rewrite Y2. f_equal. f_equal.
      rewrite !app_length. cbn. rewrite !app_length. cbn. lia.
    - cbn [negb andb]; destruct (existsb is_block yes) eqn:B; [exact I|].
      assert (K : exists k', S (length (w_toks w)) = length (flat_map flat yes) + S k').
      { exists (length (w_toks w) - length (flat_map flat yes)). rewrite W1. rewrite !app_length. cbn. rewrite !app_length. lia. }
      destruct K as (k' & K). rewrite K in L.
      rewrite (sskip_leaves w (S n) _ _ yes B WF CM (pre ++ [ti]) (te :: post) (push_frame (new_frame (cond_frame c)) (set_idx (S (length pre)) s)) _ x W2 ltac:(cbn; rewrite app_length; cbn; lia) ltac:(cbn; now rewrite HS)) in L.
      rewrite (scond_end w n _ ((pre ++ [ti]) ++ flat_map flat yes) l' c post (set_idx (length ((pre ++ [ti]) ++ flat_map flat yes)) (push_frame (new_frame (cond_frame c)) (set_idx (S (length pre)) s))) (new_frame (cond_frame c)) f r false k' x ltac:(rewrite W2; now rewrite <- !app_assoc) eq_refl ltac:(cbn; now rewrite HS) eq_refl) in L.
      rewrite (sbind_ok _ _ _ _ _ _ _ L). cbn [sc_secs]. exists []. rewrite app_nil_r. split; [exact HV|]. rewrite HE. f_equal. f_equal.
      rewrite !app_length. cbn. rewrite !app_length. cbn. lia.
  Qed.
  Lemma sgoes_ifelse w l c yes le no l' : all_apt yes /\ all_calm yes -> all_apt no /\ all_calm no -> sgoes_all w yes -> sgoes_all w no ->
    sgoes w (IIfElse l c yes le no l').
  Proof.
    intros [WY CY] [WN CN] HY HNo c0 n D h pre post s st f r k x HD HC HN HW HI HS HR HV HE. cbn [count flat depth srender] in *.
    set (ti := LTok (TFun (test_fn c)) l) in *. set (te := LTok (TFun (FEnd (test_name c) false)) l') in *.
    set (tl := LTok (TFun FElse) le) in *.
    assert (W2 : w_toks w = (pre ++ [ti]) ++ flat_map flat yes ++ tl :: flat_map flat no ++ te :: post).
    { rewrite HW. repeat (rewrite <- !app_assoc; cbn [app]). reflexivity. }
    assert (W3 : w_toks w = ((pre ++ [ti]) ++ flat_map flat yes ++ [tl]) ++ flat_map flat no ++ te :: post).
    { rewrite W2. repeat (rewrite <- !app_assoc; cbn [app]). reflexivity. }
    assert (W4 : w_toks w = (((pre ++ [ti]) ++ flat_map flat yes ++ [tl]) ++ flat_map flat no) ++ te :: post).
    { rewrite W3. repeat (rewrite <- !app_assoc; cbn [app]). reflexivity. }
    assert (W5 : w_toks w = ((pre ++ [ti]) ++ flat_map flat yes) ++ tl :: flat_map flat no ++ te :: post).
    { rewrite W2. repeat (rewrite <- !app_assoc; cbn [app]). reflexivity. }
    assert (LE : S (length ((pre ++ [ti]) ++ flat_map flat yes)) = length ((pre ++ [ti]) ++ flat_map flat yes ++ [tl])).
    { rewrite !app_length. cbn. lia. }
    assert (LT : length (w_toks w) >= 2 + length (flat_map flat yes) + length (flat_map flat no)).
    { rewrite W2. rewrite !app_length. cbn. rewrite !app_length. cbn. lia. }
    assert (Cy := lsum_flat yes). assert (Cn := lsum_flat no).
    assert (NTC : next_token w s = Some (ti, set_idx (S (length pre)) s) /\ current w (set_idx (S (length pre)) s) = Some ti).
    { eapply next_at; [|exact HI]. rewrite HW. reflexivity. }
    destruct NTC as [NT C].
    cbn [Nat.add]. rewrite (HD k s ti _ x ltac:(rewrite HS; cbn; lia) NT ltac:(intros _; apply test_plain)).
    destruct n as [|n]; [lia|]. assert (L := scond_enter n w l c _ f r x C HS). fold ti in L. rewrite HV.
    assert (Q := lmax_pos depth yes). destruct n as [|n]; [lia|].
    assert (LD : S (length (((pre ++ [ti]) ++ flat_map flat yes ++ [tl]) ++ flat_map flat no)) =
      length (pre ++ ti :: flat_map flat yes ++ tl :: flat_map flat no ++ [te])).
    { rewrite !app_length. cbn. rewrite !app_length. cbn. rewrite !app_length. cbn. lia. }
    unfold sagrees.
    destruct (holds c (map fr_vars (f :: r))) as [[|]|e|p|]; cbn [fst snd]; [| |now apply sbind_err|exact I|exact I].
    - assert (K : exists k', S (length (w_toks w)) = lsum count yes + S (length (flat_map flat no) + S k')).
      { exists (length (w_toks w) - lsum count yes - S (length (flat_map flat no))). lia. }
      destruct K as (k' & K). rewrite K in L.
      assert (A := sbranch_taken w (S n) c yes (pre ++ [ti]) (tl :: flat_map flat no ++ te :: post) (push_frame (new_frame (cond_frame c)) (set_idx (S (length pre)) s))
        _ f r st (S (length (flat_map flat no) + S k')) x HY CY ltac:(lia) W2 ltac:(cbn; rewrite app_length; cbn; lia) ltac:(cbn; now rewrite HS) eq_refl HV HE (tb l XE_UnexpectedEndOfFile)).
      rewrite <- L in A. unfold sagrees in A. unfold srthen.
      destruct (srscope _ _ _ x) as [x1 [o st'|e|p|]]; cbn [fst snd] in *; try exact I; [|now apply sbind_err|now apply sbind_panic].
      destruct A as (V & y & Y1 & Y2 & E). cbn [negb andb]; destruct (existsb is_block no) eqn:B; cbn [fst snd]; [exact I|].
      rewrite (scond_else w n _ ((pre ++ [ti]) ++ flat_map flat yes) le c _ (Scope (length ((pre ++ [ti]) ++ flat_map flat yes)) (y :: f :: r) (rs_secs st')) y (f :: r) true _ x1 W5 eq_refl eq_refl Y1) in E.
      cbn [negb] in E. rewrite LE in E.
      rewrite (sskip_leaves w (S n) _ _ no B WN CN ((pre ++ [ti]) ++ flat_map flat yes ++ [tl]) (te :: post) (Scope (length ((pre ++ [ti]) ++ flat_map flat yes ++ [tl])) (y :: f :: r) (rs_secs st')) _ x1 W3 eq_refl eq_refl) in E.
      rewrite (scond_end w n _ (((pre ++ [ti]) ++ flat_map flat yes ++ [tl]) ++ flat_map flat no) l' c post (Scope (length (((pre ++ [ti]) ++ flat_map flat yes ++ [tl]) ++ flat_map flat no)) (y :: f :: r) (rs_secs st')) y f r false k' x1 W4 eq_refl eq_refl Y1) in E.
      rewrite (sbind_ok _ _ _ _ _ _ _ E). cbn [sc_secs]. exists []. rewrite app_nil_r. split; [exact V|]. rewrite Y2. cbn [set_idx sc_secs]. rewrite LD. now rewrite app_nil_r.
    - cbn [negb andb]; destruct (existsb is_block yes) eqn:B; [exact I|].
      assert (K : exists k', S (length (w_toks w)) = length (flat_map flat yes) + S (lsum count no + S k')).
      { exists (length (w_toks w) - length (flat_map flat yes) - S (lsum count no)). lia. }
      destruct K as (k' & K). rewrite K in L.
      rewrite (sskip_leaves w (S n) _ _ yes B WY CY (pre ++ [ti]) (tl :: flat_map flat no ++ te :: post) (push_frame (new_frame (cond_frame c)) (set_idx (S (length pre)) s)) _ x W2 ltac:(cbn; rewrite app_length; cbn; lia) ltac:(cbn; now rewrite HS)) in L.
      rewrite (scond_else w n _ ((pre ++ [ti]) ++ flat_map flat yes) le c _ (set_idx (length ((pre ++ [ti]) ++ flat_map flat yes)) (push_frame (new_frame (cond_frame c)) (set_idx (S (length pre)) s))) (new_frame (cond_frame c)) (f :: r) false _ x W5 eq_refl ltac:(cbn; now rewrite HS) eq_refl) in L.
      cbn [negb] in L. rewrite LE in L.
      set (s2 := set_idx (length ((pre ++ [ti]) ++ flat_map flat yes ++ [tl])) _) in L.
      assert (A := sbranch_taken w (S n) c no ((pre ++ [ti]) ++ flat_map flat yes ++ [tl]) (te :: post) s2
        _ f r st (S k') x HNo CN ltac:(lia) W3 eq_refl ltac:(cbn; now rewrite HS) eq_refl HV HE (tb l XE_UnexpectedEndOfFile)).
      rewrite <- L in A. unfold sagrees in A.
      destruct (srscope _ _ _ x) as [x1 [o st'|e|p|]]; cbn [fst snd] in *; try exact I; [|now apply sbind_err|now apply sbind_panic].
      destruct A as (V & y & Y1 & Y2 & E).
      rewrite (scond_end w n _ (((pre ++ [ti]) ++ flat_map flat yes ++ [tl]) ++ flat_map flat no) l' c post (Scope (length (((pre ++ [ti]) ++ flat_map flat yes ++ [tl]) ++ flat_map flat no)) (y :: f :: r) (rs_secs st')) y f r true k' x1 W4 eq_refl eq_refl Y1) in E.
      rewrite (sbind_ok _ _ _ _ _ _ _ E). cbn [sc_secs]. exists []. rewrite app_nil_r. split; [exact V|]. rewrite Y2. now rewrite LD.
  Qed.
  Lemma sgoes_item w i : apt i -> sgoes w i.
  Proof.
    assert (L : forall l, Forall (fun i => apt i -> sgoes w i) l -> all_apt l -> sgoes_all w l) by apply sgoes_list.
    induction i using item_induct; intros WF.
    - now apply sgoes_leaf.
    - now apply sgoes_plugin.
    - apply sgoes_section. now apply L.
    - apply sgoes_for. now apply L.
    - destruct WF as [W1 W2]. apply sgoes_if; [exact W1|exact W2|now apply L].
    - destruct WF as [W1 W2]. apply sgoes_ifelse; [exact W1|exact W2|apply L; [exact H|exact (proj1 W1)]|apply L; [exact H0|exact (proj1 W2)]].
  Qed.
  Lemma sgoes_items w l : all_apt l -> sgoes_all w l.
  Proof. intros WF. apply sgoes_list; [|exact WF]. apply Forall_forall. intros i _. apply sgoes_item. Qed.

  Lemma srun_goes h site l f r secs x : all_apt l ->
    let w := World h site (flat_map flat l) in
    let z := srender_all does false h site l (RState (map fr_vars (f :: r)) secs) x in
    match snd z with
    | RDone o st => exists new, rs_scopes st = (fr_vars f ++ new) :: map fr_vars r /\
        srun beh w (Scope 0 (f :: r) secs) x =
        (fst z, Ok (Scope (length (flat_map flat l)) (Frame (fr_name f) (fr_vars f ++ new) (fr_out f ++ o) :: r) (rs_secs st)))
    | RStop e => srun beh w (Scope 0 (f :: r) secs) x = (fst z, Err e)
    | RPanic p => srun beh w (Scope 0 (f :: r) secs) x = (fst z, Panic p)
    | ROdd => True
    end.
  Proof.
    intros WF w. cbv zeta. unfold srun, srender_all.
    assert (K : exists k', S (length (w_toks w)) = lsum count l + S k').
    { exists (length (w_toks w) - lsum count l). assert (Q := lsum_flat l). cbn. lia. }
    destruct K as (k' & K).
    assert (A := sgoes_items w l WF false (S (length (w_toks w))) (fun k => srun_all beh k (S (length (w_toks w))) w) 0 [] []
      (Scope 0 (f :: r) secs) (RState (map fr_vars (f :: r)) secs) f r (S k') x (sdrives_any w _) ltac:(discriminate)
      ltac:(exact (lmax_flat l)) ltac:(cbn; now rewrite app_nil_r) eq_refl eq_refl ltac:(lia) eq_refl eq_refl).
    cbn beta in A. rewrite <- K in A.
    change (w_host w) with h in A. change (w_input w) with site in A. unfold sagrees in A.
    destruct (srseq (srender does false h site) l (RState (map fr_vars (f :: r)) secs) x) as [x1 [o st|e|p|]]; cbn [fst snd] in *; try exact I.
    - destruct A as (new & V & E). exists new. split; [exact V|]. rewrite E.
      cbn [srun_all]. unfold next_token. cbn [sc_idx w w_toks app].
      assert (N : nth_error (flat_map flat l) (length (flat_map flat l)) = None) by (apply nth_error_None; lia).
      now rewrite N.
    - exact A.
    - exact A.
  Qed.

  Lemma srseq_agrees {A} (f g : A -> rstate -> X -> X * rres) l :
    Forall (fun a => forall st x, snd (f a st x) <> ROdd -> g a st x = f a st x) l ->
    forall st x, snd (srseq f l st x) <> ROdd -> srseq g l st x = srseq f l st x.
  Proof.
    intros H. induction H as [|a l Ha Hl IH]; intros st x N; [reflexivity|]. cbn [srseq] in *. fold (srseq f) in *. fold (srseq g) in *.
    unfold srthen in *. rewrite Ha; [|intros Q; rewrite Q in N; cbn [snd] in N; now apply N].
    destruct (f a st x) as [x1 [o st'|e|p|]]; cbn [fst snd] in *; try reflexivity.
    rewrite IH; [reflexivity|]. intros Q. apply N. destruct (srseq f l st' x1) as [x2 r]. cbn in *. now subst r.
  Qed.
  Lemma srscope_agrees vs (f g : rstate -> X -> X * rres) : (forall st x, snd (f st x) <> ROdd -> g st x = f st x) ->
    forall st x, snd (srscope vs f st x) <> ROdd -> srscope vs g st x = srscope vs f st x.
  Proof.
    intros H st x N. unfold srscope in *. rewrite H; [reflexivity|]. intros Q. apply N.
    destruct (f _ x) as [x2 r]. cbn in *. now subst r.
  Qed.
  Lemma sideal_item h site i : forall st x, snd (srender does false h site i st x) <> ROdd -> srender does true h site i st x = srender does false h site i st x.
  Proof.
    induction i as [t|l p b|l a b body c l' IH|l f body l' IH|l c yes l' IH|l c yes le no l' IH1 IH2] using item_induct; intros st x N; cbn [srender] in *.
    - reflexivity.
    - reflexivity.
    - rewrite (srscope_agrees [] (srseq (srender does false h site) body)); [reflexivity|now apply srseq_agrees|].
      intros Q. apply N. destruct (srscope _ _ st x) as [x2 r]. cbn in *. now subst r.
    - destruct (for_values _ _ _) as [vs|e|p|]; try reflexivity. destruct (select f vs) as [|v vs']; [now destruct N|].
      apply srseq_agrees; [|exact N]. apply Forall_forall. intros y _ st0. apply srscope_agrees. now apply srseq_agrees.
    - destruct (holds c (rs_scopes st)) as [[|]|e|p|]; try reflexivity.
      + apply srscope_agrees; [now apply srseq_agrees|exact N].
      + cbn [negb andb] in *. destruct (existsb is_block yes); [now destruct N|reflexivity].
    - destruct (holds c (rs_scopes st)) as [[|]|e|p|]; try reflexivity.
      + assert (N1 : snd (srscope [] (srseq (srender does false h site) yes) st x) <> ROdd).
        { intros Q. apply N. unfold srthen. now rewrite Q. }
        rewrite (srscope_agrees [] (srseq (srender does false h site) yes) (srseq (srender does true h site) yes) ltac:(now apply srseq_agrees) st x N1).
        unfold srthen in *. destruct (srscope [] (srseq (srender does false h site) yes) st x) as [x1 [o st'|e|p|]]; cbn [fst snd negb andb] in *; try reflexivity.
        destruct (existsb is_block no); [now destruct N|reflexivity].
      + cbn [negb andb] in *. destruct (existsb is_block yes); [now destruct N|].
        apply srscope_agrees; [now apply srseq_agrees|exact N].
  Qed.
  Lemma sideal_all h site l st x : snd (srender_all does false h site l st x) <> ROdd -> srender_all does true h site l st x = srender_all does false h site l st x.
  Proof. apply srseq_agrees. apply Forall_forall. intros i _. apply sideal_item. Qed.
  Lemma all_apt_forall l : all_apt l <-> Forall apt l.
  Proof.
    split.
    - induction l as [|i l IH]; [constructor|]. intros [H1 H2]. constructor; [exact H1|now apply IH].
    - intros H. induction H; cbn; [exact I|now split].
  Qed.
  Lemma sblock_structure h site l f r secs x : Forall apt l ->
    let st := RState (map fr_vars (f :: r)) secs in
    let result := srun beh (World h site (flat_map flat l)) (Scope 0 (f :: r) secs) x in
    snd (srender_all does false h site l st x) <> ROdd ->
    match srender_all does true h site l st x with
    | (x', RDone o st') => exists new, rs_scopes st' = (fr_vars f ++ new) :: map fr_vars r /\
        result = (x', Ok (Scope (length (flat_map flat l)) (Frame (fr_name f) (fr_vars f ++ new) (fr_out f ++ o) :: r) (rs_secs st')))
    | (x', RStop e) => result = (x', Err e)
    | (x', RPanic p) => result = (x', Panic p)
    | (_, ROdd) => False
    end.
  Proof.
    intros WF st result N. apply all_apt_forall in WF. rewrite (sideal_all h site l st x N).
    assert (A := srun_goes h site l f r secs x WF). cbv zeta in A. fold st in A. fold result in A.
    destruct (srender_all does false h site l st x) as [x1 [o st'|e|p|]]; cbn [fst snd] in *; try exact A. now apply N.
  Qed.
End SRender.

(** ** JavaScript plugins *)
Lemma sjs_run_effect {Y} (p : sjs_prog Y) : forall s f r, sc_stack s = f :: r ->
  sjs_run p s = match sjs_effect p (map fr_vars (f :: r)) with
                | Ok (new, y, t) => Ok (Scope (sc_idx s) (Frame (fr_name f) (fr_vars f ++ new) (fr_out f) :: r) (sc_secs s), y, t)
                | Err _ => OutOfFuel | Panic q => Panic q | OutOfFuel => OutOfFuel
                end.
Proof.
  induction p as [y0 t0|n k IH|n v p IH]; intros s f r ST; cbn [sjs_run sjs_effect].
  - rewrite app_nil_r. destruct s as [i st secs], f. cbn in *. now subst.
  - rewrite get_variable_vars, <- ST. rewrite (IH _ s f r ST). now rewrite <- ST.
  - destruct (js_to_json v) as [[y|]| | |]; try reflexivity; [|now apply IH]. rewrite ST. rewrite (IH _ (add_var n y f) r) by reflexivity.
    cbn [map add_var fr_vars bind_vars set_stack sc_idx sc_secs fr_name fr_out]. destruct (sjs_effect p _) as [[[new y'] t]| | |]; cbn [bind fst snd]; try reflexivity. now rewrite <- app_assoc.
Qed.
Lemma sjs_effect_ok {Y} (p : sjs_prog Y) : forall sc e, sjs_effect p sc <> Err e.
Proof.
  induction p as [y0 t0|n k IH|n v p IH]; intros sc e; cbn [sjs_effect]; [discriminate|apply IH|]. destruct (js_to_json v) as [[y|]| | |]; try discriminate; [|apply IH].
  specialize (IH (bind_vars [(n, y)] sc)). destruct (sjs_effect p _) as [[new t]| | |]; cbn [bind]; try discriminate. intros E. now destruct (IH e0).
Qed.
Lemma js_doing {Y} (code : N -> text -> option (sjs_code Y)) others p : (pf_call p = None -> acts p (others p)) ->
  doing (js_does code others) (js_behaviour code) p.
Proof.
  intros O l s f r x ST. unfold js_behaviour, js_does. destruct (pf_call p) as [c|].
  - change (@SpecSRender.js_given) with (@JsFacts.js_given). rewrite (js_given_arg l s (pc_args c)).
    destruct (map_res (JsFacts.js_given (map fr_vars (sc_stack s))) (pc_args c)) as [vs|e|q|]; cbn [map_err]; try reflexivity.
    destruct (code (pc_ctx c) (pc_name c)) as [g|]; [|reflexivity].
    rewrite (sjs_run_effect _ s f r ST), ST. destruct (sjs_effect _ _) as [[[new y] t]|e|q|] eqn:E; try reflexivity; [|now apply sjs_effect_ok in E].
    cbn [fst snd]. unfold keep. f_equal. destruct t as [t|]; [|now rewrite app_nil_r]. unfold output. cbn [sc_stack]. reflexivity.
  - now rewrite (O eq_refl l s f r ST).
Qed.
