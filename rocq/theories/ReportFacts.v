(** ReportFacts.v -- facts about error reports (C79). *)

From Coq Require Import String List NArith ZArith Bool Lia.
From Verif Require Import Text Utf8 Json Base Syntax Parse Tree Interp Build Disk Cli Load Dev New Report Main.
From Verif Require Import SpecScope SpecDisk SpecProject SpecDev SpecMain SpecReport TextFacts ScopeFacts MainFacts.
Import ListNotations.

Lemma at_first {A} (c : A) a : forall b x y, ~ In c a -> ~ In c b -> a ++ c :: x = b ++ c :: y -> a = b /\ x = y.
Proof.
  induction a as [|k a IH]; intros [|k' b] x y NA NB E; cbn [app] in E.
  - now injection E as ->.
  - injection E as <- _. exfalso. apply NB. now left.
  - injection E as -> _. exfalso. apply NA. now left.
  - injection E as -> E. destruct (IH b x y) as [-> ->]; auto; intros I; [apply NA|apply NB]; now right.
Qed.
Lemma at_last {A} (c : A) a b x y : ~ In c x -> ~ In c y -> a ++ c :: x = b ++ c :: y -> a = b /\ x = y.
Proof.
  intros NX NY E. apply (f_equal (@rev A)) in E. rewrite !rev_app_distr in E. cbn [rev] in E. rewrite <- !app_assoc in E. cbn [app] in E.
  apply at_first in E; [|now rewrite <- in_rev|now rewrite <- in_rev]. destruct E as [E1 E2]. split; [rewrite <- (rev_involutive a), E2; apply rev_involutive|rewrite <- (rev_involutive x), E1; apply rev_involutive].
Qed.
Lemma show_inj n m : show_N n = show_N m -> n = m.
Proof. intros E. assert (A := parse_digits_show n). rewrite E, parse_digits_show in A. now injection A. Qed.
Lemma show_no c n : is_digit c = false -> ~ In c (show_N n).
Proof. intros D I. destruct (show_N_spec n) as (_ & _ & T). unfold digit_text in T. rewrite forallb_forall in T. specialize (T c I). congruence. Qed.
Lemma where_inj f f' l l' c c' : f ++ [c_colon] ++ show_N l ++ [c_colon] ++ show_N c = f' ++ [c_colon] ++ show_N l' ++ [c_colon] ++ show_N c' -> f = f' /\ l = l' /\ c = c'.
Proof.
  assert (A : forall f l c, f ++ [c_colon] ++ show_N l ++ [c_colon] ++ show_N c = (f ++ [c_colon] ++ show_N l) ++ c_colon :: show_N c) by (intros; now rewrite <- !app_assoc).
  rewrite !A. intros E. apply at_last in E; try (now apply show_no). destruct E as [E E3]. change (f ++ c_colon :: show_N l = f' ++ c_colon :: show_N l') in E. apply at_last in E; try (now apply show_no).
  destruct E as [-> E]. repeat split; now apply show_inj.
Qed.

(** ** Paths *)
Lemma strip_app pre : forall p q, strip_path pre p = Some q <-> p = pre ++ q.
Proof.
  induction pre as [|a pre IH]; intros p q; cbn [strip_path app].
  - split; [now intros [= ->]|now intros ->].
  - destruct p as [|b p]; [split; discriminate|]. destruct (text_eqb a b) eqn:E.
    + apply text_eqb_eq in E as ->. rewrite IH. split; [now intros ->|now intros [= ->]].
    + split; [discriminate|]. intros [= -> _]. now rewrite text_eqb_refl in E.
Qed.
Lemma show_rel_inj p : forall q, Forall plain p -> Forall plain q -> show_rel p = show_rel q -> p = q.
Proof.
  assert (NN : forall k (x : path), plain k -> show_rel (k :: x) <> []) by (intros [|c k] x (P & _) E; [contradiction|destruct x; discriminate]).
  intros q FP FQ E. destruct p as [|k p].
  - destruct q as [|k' q]; [reflexivity|]. inversion FQ; subst. symmetry in E. now apply NN in E.
  - destruct q as [|k' q]; [inversion FP; subst; now apply NN in E|].
    assert (A := split_shown (k :: p) ltac:(discriminate) FP). rewrite E, split_shown in A by (try discriminate; assumption). cbn [hd tl] in A. now injection A as -> ->.
Qed.
Lemma show_path_inj cwd p q : Forall plain p -> Forall plain q -> show_path cwd p = show_path cwd q -> p = q.
Proof.
  intros FP FQ. unfold show_path, show_abs. destruct (strip_path cwd p) as [p'|] eqn:SP; destruct (strip_path cwd q) as [q'|] eqn:SQ; intros E;
    try apply strip_app in SP; try apply strip_app in SQ; subst.
  - apply Forall_app in FP, FQ. now rewrite (show_rel_inj p' q') by tauto.
  - apply Forall_app in FP. destruct FP as [_ FP]. exfalso. destruct p' as [|k p']; [discriminate|]. inversion FP as [|? ? P _]; subst. destruct k as [|c k]; [now destruct P|].
    assert (c = c_slash) by (destruct p'; cbn in E; now injection E). subst. apply P. now left.
  - apply Forall_app in FQ. destruct FQ as [_ FQ]. exfalso. destruct q' as [|k q']; [discriminate|]. inversion FQ as [|? ? P _]; subst. destruct k as [|c k]; [now destruct P|].
    assert (c_slash = c) by (destruct q'; cbn in E; now injection E). subst. apply P. now left.
  - injection E as E. now apply show_rel_inj.
Qed.
Lemma shown_tidy c p : c <> c_slash -> Forall (fun n : text => ~ In c n) p -> ~ In c (show_rel p).
Proof.
  intros N F. induction p as [|k p IH]; [auto|]. inversion F as [|? ? A B]; subst. destruct p as [|k' p]; [exact A|].
  change (show_rel (k :: k' :: p)) with (k ++ c_slash :: show_rel (k' :: p)). intros I. apply in_app_iff in I. destruct I as [I|[I|I]]; [now apply A|congruence|now apply IH].
Qed.
Lemma path_tidy c cwd p : c <> c_slash -> Forall (fun n : text => ~ In c n) p -> ~ In c (show_path cwd p).
Proof.
  intros N F. unfold show_path, show_abs. destruct (strip_path cwd p) as [q|] eqn:S.
  - apply strip_app in S as ->. apply Forall_app in F. now apply shown_tidy.
  - intros [I|I]; [congruence|]. now apply (shown_tidy c p).
Qed.

(** ** Messages *)
Lemma quoted_inj a b x y : unquoted a -> unquoted b -> quoted a ++ x = quoted b ++ y -> a = b /\ x = y.
Proof. intros NA NB E. unfold quoted in E. rewrite <- !app_assoc in E. apply app_inv_head in E. now apply at_first in E. Qed.
Lemma quoted_all a b : quoted a = quoted b -> a = b.
Proof. unfold quoted. intros E. apply app_inv_head in E. now apply app_inv_tail in E. Qed.
Lemma parse_msg_inj c e e' : parse_msg c e = parse_msg c e' -> e = e'.
Proof.
  destruct e, e'; intros E; try reflexivity; try (vm_compute in E; discriminate E);
    cbn [parse_msg] in E; apply app_inv_head in E; apply quoted_all in E; now subst.
Qed.
Lemma process_msg_inj e e' : Forall tidy (process_subjects e) -> Forall tidy (process_subjects e') -> process_msg e = process_msg e' -> e = e'.
Proof.
  destruct e, e'; intros T T' E; try reflexivity; try (cbn [process_msg] in E; apply app_inv_head in E; apply quoted_all in E; now subst);
    try (cbn [process_msg] in E; repeat match type of E with context[if ?b then _ else _] => destruct b end; vm_compute in E; discriminate E).
  cbn [process_subjects] in T, T'. inversion T as [|? ? [_ T1] T2]; subst. inversion T2 as [|? ? [_ T3] T4]; subst. inversion T4 as [|? ? [_ T5] _]; subst.
  inversion T' as [|? ? [_ T1'] T2']; subst. inversion T2' as [|? ? [_ T3'] T4']; subst. inversion T4' as [|? ? [_ T5'] _]; subst. clear T T' T2 T4 T2' T4'.
  cbn [process_msg] in E. destruct (text_eqb found []) eqn:F; destruct (text_eqb found0 []) eqn:F0; apply app_inv_head in E; apply quoted_inj in E; try assumption; destruct E as [-> E];
    apply app_inv_head in E.
  - apply quoted_all in E. apply text_eqb_eq in F, F0. now subst.
  - rewrite <- (app_nil_r (quoted expected)) in E. apply quoted_inj in E; try assumption. destruct E as [_ E]. discriminate.
  - rewrite <- (app_nil_r (quoted expected0)) in E. apply quoted_inj in E; try assumption. destruct E as [_ E]. discriminate.
  - apply quoted_inj in E; try assumption. destruct E as [-> E]. apply app_inv_head in E. apply quoted_all in E. now subst.
Qed.
Lemma both_msg c e e' : parse_msg c e = process_msg e' -> e = PE_UnexpectedEOF /\ e' = XE_UnexpectedEndOfFile.
Proof.
  destruct e, e'; intros E; try (now split);
    cbn [process_msg] in E; repeat match type of E with context[if ?b then _ else _] => destruct b end; vm_compute in E; discriminate E.
Qed.
Lemma lit_line s : forallb (fun c => negb (N.eqb c c_lf)) (lit s) = true -> one_line (lit s).
Proof. intros F I. rewrite forallb_forall in F. apply F in I. now rewrite N.eqb_refl in I. Qed.
Lemma line_app a b : one_line a -> one_line b -> one_line (a ++ b).
Proof. intros A B I. apply in_app_iff in I. destruct I; [now apply A|now apply B]. Qed.
Lemma line_quoted a : one_line a -> one_line (quoted a).
Proof. intros A. apply line_app; [|apply line_app; [exact A|]]; intros [I|[]]; discriminate. Qed.
Lemma parse_line c e : one_line c -> Forall tidy (parse_subjects e) -> one_line (parse_msg c e).
Proof.
  intros C T. destruct e; cbn [parse_msg parse_subjects] in *; try (now apply lit_line); apply line_app; try (now apply lit_line); apply line_quoted; try assumption; inversion T as [|? ? [A _] _]; now subst.
Qed.
Lemma process_line e : Forall tidy (process_subjects e) -> one_line (process_msg e).
Proof.
  intros T. destruct e; cbn [process_msg process_subjects] in *; try (now apply lit_line);
    try (apply line_app; [now apply lit_line|]; apply line_quoted; inversion T as [|? ? [A _] _]; now subst).
  inversion T as [|? ? [T1 _] T2]; subst. inversion T2 as [|? ? [T3 _] T4]; subst. inversion T4 as [|? ? [T5 _] _]; subst.
  destruct (text_eqb found []); repeat (apply line_app; [first [now apply lit_line|now apply line_quoted]|]); now apply line_quoted.
Qed.

(** ** Whole reports *)
(** The lines after the message. *)
Definition tail_of (chk : bool) (file : text) (line col : N) (help : option text) (pv : option text) : list text :=
  let where_ := file ++ [c_colon] ++ show_N line ++ [c_colon] ++ show_N col in
  let w := length (show_N line) in
  match pv with
  | Some l =>
      (lit "  --> " ++ where_) ::
      [spaces (S w) ++ lit "|"; show_N line ++ lit " | " ++ l;
       spaces (S w) ++ lit "| " ++ spaces (caret_offset col) ++ lit "^^^ error occurred here"; spaces (S w) ++ lit "|"]
      ++ match help with Some h => [spaces (S w) ++ lit "= help: " ++ h] | None => [] end
  | None => (lit "  at " ++ where_) :: match help with Some h => [lit "  help: " ++ h] | None => [] end
  end.
Lemma report_tail chk file line col msg help contents l : report chk file line col [msg] help contents = Ok l ->
  exists pv, preview chk line contents = Ok pv /\ l = msg :: tail_of chk file line col help pv.
Proof.
  unfold report. destruct (preview chk line contents) as [pv| | |]; cbn [bind]; try discriminate. intros [= <-]. exists pv. split; [reflexivity|]. unfold tail_of. now destruct pv.
Qed.
Lemma unlines_cons a l : unlines (a :: l) = a ++ c_lf :: unlines l.
Proof. unfold unlines. cbn [flat_map]. now rewrite <- app_assoc. Qed.
Lemma unlines_app a b : unlines (a ++ b) = unlines a ++ unlines b.
Proof. unfold unlines. apply flat_map_app. Qed.
Lemma where_line cwd p l c : tidy_path p -> one_line (show_path cwd p ++ [c_colon] ++ show_N l ++ [c_colon] ++ show_N c).
Proof.
  intros T. assert (C : one_line [c_colon]) by (intros [I|[]]; discriminate). repeat apply line_app; try exact C; try (now apply show_no).
  apply path_tidy; [discriminate|]. eapply Forall_impl; [|exact T]. now intros a [_ [A _]].
Qed.
Lemma tail_where chk chk' cwd p p' l l' c c' help help' pv pv' : tidy_path p -> tidy_path p' ->
  unlines (tail_of chk (show_path cwd p) l c help pv) = unlines (tail_of chk' (show_path cwd p') l' c' help' pv') -> p = p' /\ l = l' /\ c = c'.
Proof.
  intros T T' E. assert (X := where_line cwd p l c T). assert (X' := where_line cwd p' l' c' T').
  assert (K : forall a a' t t', one_line a -> one_line a' -> unlines (a :: t) = unlines (a' :: t') -> a = a') by (intros a a' t t' A A' U; rewrite !unlines_cons in U; now apply at_first in U).
  assert (P : forall q, tidy_path q -> Forall plain q) by (intros q Q; eapply Forall_impl; [|exact Q]; now intros a [A _]).
  destruct pv as [v|], pv' as [v'|]; unfold tail_of in E; apply K in E; try (apply line_app; [now apply lit_line|assumption]); try discriminate E;
    apply app_inv_head in E; apply where_inj in E; destruct E as (E & -> & ->); (split; [|now split]); apply show_path_inj in E; auto.
Qed.
Lemma tail_help chk file l c h pv : unlines (tail_of chk file l c (Some h) pv) <> unlines (tail_of chk file l c None pv).
Proof.
  assert (L : forall x y, unlines (x ++ [y]) <> unlines x).
  { intros x y E. apply (f_equal (@length N)) in E. rewrite unlines_app, app_length in E. unfold unlines at 2 in E. cbn [flat_map] in E. rewrite app_nil_r, app_length in E. cbn [length] in E. unfold text, char in *. lia. }
  destruct pv as [v|]; unfold tail_of; cbn zeta.
  - match goal with |- unlines (?a :: ?b ++ [?h]) <> _ => change (a :: b ++ [h]) with ((a :: b) ++ [h]) end. rewrite app_nil_r. apply L.
  - match goal with |- unlines [?a; ?h] <> _ => change [a; h] with ([a] ++ [h]) end. apply L.
Qed.
Lemma printed_parts s d e t : one_line (sn_cond s) -> located e -> Report.printed s d e = Ok t ->
  (exists x pv, e = E_Parse x /\ preview (sn_checked s) (tb_line x) (contents_at (tb_path x) d) = Ok pv /\
    t = lit "error: " ++ parse_msg (sn_cond s) (tb_kind x) ++ c_lf :: unlines (tail_of (sn_checked s) (show_path (sn_cwd s) (tb_path x)) (tb_line x) (tb_col x) (parse_help (tb_kind x)) pv)) \/
  (exists x pv, e = E_Process x /\ preview (sn_checked s) (tb_line x) (contents_at (tb_path x) d) = Ok pv /\
    t = lit "error: " ++ process_msg (tb_kind x) ++ c_lf :: unlines (tail_of (sn_checked s) (show_path (sn_cwd s) (tb_path x)) (tb_line x) (tb_col x) (process_help (tb_kind x)) pv)).
Proof.
  intros C L P. unfold Report.printed in P. destruct L as [x TP TS|x TP TS]; cbn [display] in P; unfold display_at in P;
    match type of P with context[report ?a ?b ?c ?d ?e ?f ?g] => destruct (report a b c d e f g) as [l| | |] eqn:R; try discriminate end;
    apply report_tail in R; destruct R as (pv & V & ->); cbn [bind] in P; injection P as <-; [left|right]; exists x, pv; rewrite <- unlines_cons; now repeat split.
Qed.
Lemma report_identifies s d e e' t : one_line (sn_cond s) -> located e -> located e' -> Report.printed s d e = Ok t -> Report.printed s d e' = Ok t -> e = e'.
Proof.
  intros C L L' P P'. destruct (printed_parts _ _ _ _ C L P) as [(x & pv & -> & V & E)|(x & pv & -> & V & E)]; destruct (printed_parts _ _ _ _ C L' P') as [(x' & pv' & -> & V' & E')|(x' & pv' & -> & V' & E')];
    rewrite E in E'; apply app_inv_head in E'; inversion L as [? TP TS|? TP TS]; subst; inversion L' as [? TP' TS'|? TP' TS']; subst;
    apply at_first in E'; try (now apply parse_line); try (now apply process_line); destruct E' as [M E'].
  - apply parse_msg_inj in M. apply tail_where in E'; try assumption. destruct x, x'. cbn in *. destruct E' as (-> & -> & ->). now subst.
  - exfalso. apply both_msg in M. destruct M as [M M']. pose proof E' as W. apply tail_where in W; try assumption. destruct x, x'. cbn in *. destruct W as (-> & -> & ->). subst. rewrite V in V'. injection V' as <-. now apply tail_help in E'.
  - exfalso. symmetry in M. apply both_msg in M. destruct M as [M M']. pose proof E' as W. apply tail_where in W; try assumption. destruct x, x'. cbn in *. destruct W as (-> & -> & ->). subst. rewrite V in V'. injection V' as <-. symmetry in E'. now apply tail_help in E'.
  - apply process_msg_inj in M; try assumption. apply tail_where in E'; try assumption. destruct x, x'. cbn in *. destruct E' as (-> & -> & ->). now subst.
Qed.
Lemma conflict_identifies s d a b a' b' t : tidy_path a -> tidy_path b -> tidy_path a' -> tidy_path b' ->
  Report.printed s d (E_Fs (FE_Conflict a b)) = Ok t -> Report.printed s d (E_Fs (FE_Conflict a' b')) = Ok t -> a = a' /\ b = b'.
Proof.
  intros TA TB TA' TB' P P'. unfold Report.printed in *. cbn [display bind fs_msg] in *. rewrite <- P' in P. clear P'. assert (E := f_equal (fun r => match r with Ok x => x | _ => [] end) P). cbv beta iota in E. clear P. apply app_inv_head in E.
  assert (P : forall q, tidy_path q -> Forall plain q) by (intros q Q; eapply Forall_impl; [|exact Q]; now intros x [A _]).
  assert (U : forall q, tidy_path q -> unquoted (show_path (sn_cwd s) q)) by (intros q Q; apply path_tidy; [discriminate|]; eapply Forall_impl; [|exact Q]; now intros x [_ [_ A]]).
  unfold unlines in E. cbn [flat_map] in E. rewrite !app_nil_r in E. apply app_inv_tail in E. apply app_inv_head in E. apply quoted_inj in E; auto. destruct E as [EB E].
  apply app_inv_head in E. apply quoted_all in E. split; eapply show_path_inj; eauto.
Qed.
Lemma report_helps s d e t : one_line (sn_cond s) -> located e -> Report.printed s d e = Ok t ->
  forall h, advice e h -> exists pre, last_line t (pre ++ lit "help: " ++ h).
Proof.
  intros C L P h A.
  assert (HP : forall x, e = E_Parse x -> parse_help (tb_kind x) = Some h) by (intros x ->; inversion A as [? E|? ? E|? ? E|? ? E|? E| | | | | | | | | | | |]; rewrite E; reflexivity).
  assert (HX : forall x, e = E_Process x -> process_help (tb_kind x) = Some h) by (intros x ->; inversion A as [| | | | |? E|? E|? E|? E|? E|? ? E|? ? E|? ? E| | | |]; rewrite E; reflexivity).
  assert (K : forall m x l c pv, exists pre, last_line (lit "error: " ++ m ++ c_lf :: unlines (tail_of (sn_checked s) x l c (Some h) pv)) (pre ++ lit "help: " ++ h)).
  { intros m x l c pv. unfold tail_of. cbn zeta. destruct pv as [v|].
    - exists (spaces (S (length (show_N l))) ++ lit "= ").
      match goal with |- context[unlines (?a :: ?b ++ [?y])] => change (a :: b ++ [y]) with ((a :: b) ++ [y]); set (F := a :: b); set (y0 := y) end.
      exists (lit "error: " ++ m ++ c_lf :: unlines F). split.
      + rewrite unlines_app. unfold unlines at 2. cbn [flat_map]. rewrite app_nil_r. unfold y0. rewrite <- ?app_assoc. cbn [app]. rewrite <- ?app_assoc. reflexivity.
      + right. subst F. match goal with |- context[unlines [?a1; ?a2; ?a3; ?a4; ?a5]] => exists (lit "error: " ++ m ++ c_lf :: unlines [a1; a2; a3; a4] ++ a5); change [a1; a2; a3; a4; a5] with ([a1; a2; a3; a4] ++ [a5]) end.
        rewrite unlines_app. unfold unlines at 2. cbn [flat_map]. rewrite app_nil_r. rewrite <- ?app_assoc. cbn [app]. rewrite <- ?app_assoc. reflexivity.
    - exists (lit "  "). set (a := lit "  at " ++ x ++ [c_colon] ++ show_N l ++ [c_colon] ++ show_N c). rewrite unlines_cons. unfold unlines. cbn [flat_map]. rewrite app_nil_r.
      exists (lit "error: " ++ m ++ c_lf :: a ++ [c_lf]). split.
      + rewrite <- ?app_assoc. cbn [app]. rewrite <- ?app_assoc. reflexivity.
      + right. exists (lit "error: " ++ m ++ c_lf :: a). rewrite <- ?app_assoc. reflexivity. }
  destruct (printed_parts _ _ _ _ C L P) as [(x & pv & -> & _ & ->)|(x & pv & -> & _ & ->)]; [rewrite (HP x eq_refl)|rewrite (HX x eq_refl)]; apply K.
Qed.
Lemma no_sub (n : text) t : (fix go (t : text) : bool := negb (starts_with n t) && match t with [] => true | _ :: t' => go t' end) t = true -> forall a b, t <> a ++ n ++ b.
Proof.
  induction t as [|c t IH]; intros H a b E; apply andb_prop in H; destruct H as [H H'].
  - destruct a; [|discriminate]. assert (S : starts_with n [] = true) by (rewrite E; apply starts_with_spec; now exists b). now rewrite S in H.
  - destruct a as [|x a]; [assert (S : starts_with n (c :: t) = true) by (rewrite E; apply starts_with_spec; now exists b); now rewrite S in H|]. injection E as -> E. now apply (IH H' a b).
Qed.
Lemma unhelpful : exists s d e h t, advice e h /\ Report.printed s d e = Ok t /\ forall a b, t <> a ++ lit "help" ++ b.
Proof. exists (Screen [] true []), (EDir []), (E_Fs FE_Write). do 2 eexists. split; [constructor|]. split; [reflexivity|]. apply no_sub. reflexivity. Qed.
Lemma unnamed : exists w bad e, main w Quiet (CmdBuild (lit "stuart.toml") (lit "dist")) (two_pages bad []) = (two_pages bad [], Exit 1, [Report (ME e)]) /\
  main w Quiet (CmdBuild (lit "stuart.toml") (lit "dist")) (two_pages [] bad) = (two_pages [] bad, Exit 1, [Report (ME e)]) /\
  snd (fst (main w Quiet (CmdBuild (lit "stuart.toml") (lit "dist")) (two_pages [] []))) = Exit 0 /\
  forall s d1 d2 t1 t2, Report.printed s d1 e = Ok t1 -> Report.printed s d2 e = Ok t2 -> t1 = t2.
Proof.
  exists C76_world, [255%N], (E_Fs FE_Read). split; [vm_compute; reflexivity|]. split; [vm_compute; reflexivity|].
  split; [vm_compute; reflexivity|]. intros s d1 d2 t1 t2 [= <-] [= <-]. reflexivity.
Qed.
