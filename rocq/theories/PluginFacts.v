(** PluginFacts.v -- lemmas for C70 and C71. *)

From Coq Require Import String List NArith ZArith Bool Lia Permutation.
From Verif Require Import Text TextFacts Utf8 Json Base Lexer Syntax Parse Tree Interp Build Disk Cli SpecTemplate SpecPlugins.
From Verif Require Import ParseFacts ParseErr ProjectFacts.
Import ListNotations.

(** The first of a list for which something is found. *)
Fixpoint first_of {A B} (g : A -> option B) (l : list A) : option B :=
  match l with [] => None | x :: l' => match g x with Some y => Some y | None => first_of g l' end end.
Lemma pairs_perm {A} (R : A -> A -> Prop) : (forall x y, R x y -> R y x) -> forall l l', Permutation l l' -> ForallOrdPairs R l -> ForallOrdPairs R l'.
Proof.
  intros Sy l l' P. induction P as [|x l l' P IH|x y l|l1 l2 l3 P1 IH1 P2 IH2]; intros F; auto.
  - inversion F; subst. constructor; auto. rewrite Forall_forall in *. intros y I. apply H1. now apply (Permutation_in y (Permutation_sym P)).
  - inversion F as [|? ? Fy F']; subst. inversion F' as [|? ? Fx F'']; subst. inversion Fy; subst. constructor; [constructor; auto|now constructor].
Qed.
Lemma first_perm {A B} (g : A -> option B) (R : A -> A -> Prop) : (forall x y, R x y -> R y x) ->
  (forall x y, R x y -> g x = None \/ g y = None) -> forall l l', Permutation l l' -> ForallOrdPairs R l -> first_of g l = first_of g l'.
Proof.
  intros Sy Ex l l' P. induction P as [|x l l' P IH|x y l|l1 l2 l3 P1 IH1 P2 IH2]; intros F; cbn [first_of]; auto.
  - inversion F; subst. now rewrite IH.
  - inversion F as [|? ? Fy F']; subst. inversion Fy; subst. destruct (Ex _ _ H1) as [E|E]; rewrite E; [reflexivity|]. now destruct (g y).
  - rewrite IH1; auto. apply IH2. now apply (pairs_perm R Sy _ _ P1).
Qed.
Lemma first_app {A B} (g : A -> option B) l1 l2 : first_of g (l1 ++ l2) = match first_of g l1 with Some y => Some y | None => first_of g l2 end.
Proof. induction l1; cbn; auto. now destruct (g a). Qed.

Definition fn_in (name : text) (p : plugin) := find_in_plugin name (pl_name p) (pl_fns p).
Definition np_in (e : text) (p : plugin) := find (fun np => existsb (text_eqb e) (npa_exts np)) (pl_parsers p).
Lemma find_fns name ps : find_plugin name (fns ps) = first_of (fn_in name) ps.
Proof. unfold fns. induction ps; cbn [map find_plugin first_of]; auto. unfold fn_in at 1. now rewrite IHps. Qed.
Lemma find_nps e ps : find_node_parser e ps = first_of (np_in e) ps.
Proof.
  unfold find_node_parser. induction ps as [|p ps IH]; cbn [flat_map first_of]; auto. rewrite <- IH. unfold np_in.
  induction (pl_parsers p) as [|np l IHl]; cbn; auto. now destruct (existsb _ _).
Qed.
Lemma fn_offers name p f : fn_in name p = Some f -> offers p name.
Proof.
  unfold fn_in, offers. induction (pl_fns p) as [|g l IH]; cbn; [discriminate|].
  destruct (text_eqb name (pp_name g) || text_eqb name (qualified (pl_name p) (pp_name g))) eqn:E.
  - intros _. exists g. split; [now left|]. apply orb_true_iff in E as [E|E]; apply text_eqb_eq in E; [now left|now right].
  - intros H. destruct (IH H) as (f' & I & A). exists f'. split; [now right|assumption].
Qed.
Lemma np_handles e p np : np_in e p = Some np -> handles p e.
Proof.
  unfold np_in. intros H. apply find_some in H as [I E]. exists np. split; auto. apply existsb_exists in E as (x & I' & E). apply text_eqb_eq in E. now subst.
Qed.

(** Two lists of plugins that answer alike to all but the names of the built-ins. *)
Record alike (ps ps' : list plugin) : Prop := {
  al_fn : forall n, ~ In n builtin_names -> find_plugin n (fns ps) = find_plugin n (fns ps');
  al_np : forall e, ~ In e page_exts -> find_node_parser e ps = find_node_parser e ps'
}.
Lemma clash_sym p q : ~ clash p q -> ~ clash q p.
Proof. intros N [(n & B & O & O')|(e & B & O & O')]; apply N; [left; now exists n|right; now exists e]. Qed.
Lemma perm_alike ps ps' : Permutation ps ps' -> agreed ps -> alike ps ps'.
Proof.
  intros P A. split; intros n N.
  - rewrite !find_fns. apply (first_perm _ _ clash_sym); auto. intros p q C. destruct (fn_in n p) eqn:E; auto. destruct (fn_in n q) eqn:E'; auto.
    exfalso. apply C. left. exists n. split; auto. split; eapply fn_offers; eauto.
  - rewrite !find_nps. apply (first_perm _ _ clash_sym); auto. intros p q C. destruct (np_in n p) eqn:E; auto. destruct (np_in n q) eqn:E'; auto.
    exfalso. apply C. right. exists n. split; auto. split; eapply np_handles; eauto.
Qed.

Lemma builtin_found n : In n builtin_names <-> find_builtin n function_parsers <> None.
Proof.
  split.
  - intros I. cbn in I. repeat (destruct I as [<-|I]; [vm_compute; discriminate|]). destruct I.
  - unfold function_parsers. cbn [find_builtin builtin_name].
    repeat match goal with |- context [if text_eqb n ?x then _ else _] => destruct (text_eqb n x) eqn:?H end; intros N;
      try (exfalso; now apply N); match goal with H : text_eqb n _ = true |- _ => apply text_eqb_eq in H; subst; vm_compute; tauto end.
Qed.
Lemma resolve_alike t t' raw : (forall n, ~ In n builtin_names -> find_plugin n t = find_plugin n t') -> resolve t raw = resolve t' raw.
Proof.
  intros F. unfold resolve. destruct (find_builtin (rf_name raw) function_parsers) eqn:E; [reflexivity|]. rewrite F; [reflexivity|].
  intros I. apply builtin_found in I. contradiction.
Qed.
Lemma html_alike ext t t' file : (forall n, ~ In n builtin_names -> find_plugin n t = find_plugin n t') ->
  forall input, parse_html ext t file input = parse_html ext t' file input.
Proof.
  intros F input. unfold parse_html. generalize (location (parser_new input)) (parser_new input). generalize (S (length input)).
  assert (T : forall p, parse_tag ext t file p = parse_tag ext t' file p).
  { intros p. unfold parse_tag. destruct (location _). assert (E : forall q, parse_function ext t file q = parse_function ext t' file q).
    { intros q. unfold parse_function. destruct (location q). destruct (extract_while _ q) as [nm q1]. destruct nm; auto. destruct (p_expect _ _ _); auto. cbn [bind].
      destruct (parse_args _ _ _ _ _ _) as [[[pos named] q4]| | |]; auto. cbn [bind]. now rewrite (resolve_alike t t' _ F). }
    destruct (p_peek _) as [c|]; auto. destruct (c =? c_dollar)%N; auto. now rewrite E. }
  induction n as [|n IH]; intros pos p; cbn [html_loop]; auto. destruct (extract_until _ _ _) as [[raw|] p1]; auto. rewrite T.
  destruct (parse_tag ext t' file p1) as [[tk p2]| | |]; cbn [bind]; auto. now rewrite IH.
Qed.
Lemma markdown_alike ext t t' file : (forall n, ~ In n builtin_names -> find_plugin n t = find_plugin n t') ->
  forall input, parse_markdown ext t file input = parse_markdown ext t' file input.
Proof.
  intros F input. unfold parse_markdown. match goal with |- bind ?x _ = _ => destruct x as [[n fm]| | |] end; cbn [bind]; auto. now rewrite (html_alike _ _ _ _ F).
Qed.
Lemma map_alike {A B E} (f g : A -> res E B) l : Forall (fun x => f x = g x) l -> map_res f l = map_res g l.
Proof. induction 1 as [|x l E1 F IH]; cbn [map_res]; auto. now rewrite E1, IH. Qed.
Lemma not_page e : text_eqb e (lit "html") = false -> text_eqb e (lit "md") = false -> text_eqb e (lit "json") = false -> ~ In e page_exts.
Proof. intros A B C [H|[H|[H|[]]]]; subst; vm_compute in A, B, C; discriminate. Qed.
Lemma create_alike h ps ps' parse : alike ps ps' -> forall e p name, create_from h ps parse p name e = create_from h ps' parse p name e.
Proof.
  intros A. fix IH 1. intros [b|l|] p name; cbn [create_from]; [clear IH| |reflexivity].
  - unfold create_from_file. destruct parse; auto. destruct (extension name) as [e|]; auto.
    destruct (text_eqb e (lit "html")) eqn:E1.
    { destruct (ok_or _ _); cbn [bind]; auto. now rewrite (html_alike _ _ _ _ (al_fn _ _ A)). }
    destruct (text_eqb e (lit "md")) eqn:E2.
    { destruct (ok_or _ _); cbn [bind]; auto. now rewrite (markdown_alike _ _ _ _ (al_fn _ _ A)). }
    destruct (text_eqb e (lit "json")) eqn:E3; auto. now rewrite (al_np _ _ A e (not_page _ E1 E2 E3)).
  - rewrite (map_alike (fun ne => create_from h ps parse (p ++ [fst ne]) (fst ne) (snd ne)) (fun ne => create_from h ps' parse (p ++ [fst ne]) (fst ne) (snd ne))); [reflexivity|].
    revert l. fix IHl 1. intros [|x l]; constructor; [apply IH|apply IHl].
Qed.
Lemma node_alike h ps ps' p name e : alike ps ps' -> node_new h ps true p name e = node_new h ps' true p name e.
Proof. intros A. unfold node_new. destruct e as [[|l|]|]; auto. now apply create_alike. Qed.

(** The plugins of a builder are not changed and used for loading only. *)
Definition replug (ps : list plugin) (st : stuart) : stuart := Stuart (st_input st) (st_output st) (st_config st) (st_base st) ps.
Lemma build_alike h osenv mode d st ps' : alike (st_plugins st) ps' ->
  build h osenv mode d (replug ps' st) = (replug ps' (fst (build h osenv mode d st)), snd (build h osenv mode d st)).
Proof.
  intros A. unfold build. cbn [replug st_plugins st_config st_output]. rewrite <- (node_alike _ _ _ _ _ _ A).
  destruct (node_new _ _ _ _ _ _) as [i| | |]; auto. destruct (preprocess _ _); auto. destruct (build_tree _ _ _ _) as [[? ?]| | |]; auto.
Qed.
Lemma build_plugins h osenv mode d st : st_plugins (fst (build h osenv mode d st)) = st_plugins st.
Proof. unfold build. destruct (node_new _ _ _ _ _ _) as [i| | |]; auto. destruct (preprocess _ _); auto. destruct (build_tree _ _ _ _) as [[? ?]| | |]; auto. Qed.
Lemma merge_replug n st ps : merge_output n (replug ps st) = (replug ps (fst (merge_output n st)), snd (merge_output n st)).
Proof. unfold merge_output. cbn [replug st_output]. destruct (st_output st); auto. now destruct (merge n0 n). Qed.
Lemma dirs_replug h dir d ps names : forall st, merge_dirs h dir names d (replug ps st) = (replug ps (fst (merge_dirs h dir names d st)), snd (merge_dirs h dir names d st)).
Proof.
  induction names as [|n names IH]; intros st; cbn [merge_dirs]; auto. destruct (lookup _ _) as [e|]; auto. destruct (node_new _ _ _ _ _ _); auto.
  rewrite merge_replug. destruct (merge_output a st) as [st' [u| | |]]; cbn [fst snd]; auto.
Qed.
Lemma bam_alike m c d ps : alike (st_plugins (cx_stuart c)) ps ->
  build_and_merge m (with_plugins ps c) d = (replug ps (fst (build_and_merge m c d)), snd (build_and_merge m c d)).
Proof.
  intros A. unfold build_and_merge. cbn [with_plugins cx_mode cx_dir cx_stuart]. change (Stuart _ _ _ _ ps) with (replug ps (cx_stuart c)).
  rewrite (build_alike _ _ _ _ _ _ A). destruct (build _ _ _ _ _) as [st1 [u| | |]]; cbn [fst snd]; auto. apply dirs_replug.
Qed.
Lemma cli_same m f c d ps : (forall d1, build_and_merge m (with_plugins ps c) d1 = (replug ps (fst (build_and_merge m c d1)), snd (build_and_merge m c d1))) ->
  forall c1 d1 r, cli_build m f c d = (c1, d1, r) -> cli_build m f (with_plugins ps c) d = (with_plugins ps c1, d1, r).
Proof.
  intros B c1 d1 r. unfold cli_build. cbn [with_plugins cx_pre cx_post cx_dir cx_output]. destruct (run_scripts _ (cx_pre c) d) as [e1 [x|]].
  { intros H. injection H as <- <- <-. reflexivity. }
  change (Context _ _ _ _ _ _) with (with_plugins ps c). rewrite B. destruct (build_and_merge m c e1) as [st1 [u| | |]]; cbn [fst snd].
  2-4: intros H; injection H as <- <- <-; reflexivity.
  change (save (fl_save f) (replug ps st1)) with (save (fl_save f) st1). destruct (save _ _ _ _) as [d3 [v| | |]].
  2-4: intros H; injection H as <- <- <-; reflexivity.
  change (cf_meta (st_config (replug ps st1))) with (cf_meta (st_config st1)). change (save_metadata (m_ser m) (fl_meta f) (replug ps st1)) with (save_metadata (m_ser m) (fl_meta f) st1).
  destruct (if cf_meta _ then _ else _) as [d4 [w| | |]].
  2-4: intros H; injection H as <- <- <-; reflexivity.
  destruct (run_scripts _ (cx_post c) d4) as [d5 [x|]]; intros H; injection H as <- <- <-; reflexivity.
Qed.
Lemma order_same m f c d ps ps' c1 d1 r : Permutation ps ps' -> agreed ps -> cli_build m f (with_plugins ps c) d = (c1, d1, r) ->
  cli_build m f (with_plugins ps' c) d = (with_plugins ps' c1, d1, r).
Proof.
  intros P A H. change (with_plugins ps' c) with (with_plugins ps' (with_plugins ps c)). apply cli_same; auto. intros e. apply bam_alike. now apply perm_alike.
Qed.

(** ** A further plugin *)
Record extends (ps ps' : list plugin) : Prop := {
  ex_fn : forall n f, ~ In n builtin_names -> find_plugin n (fns ps) = Some f -> find_plugin n (fns ps') = Some f;
  ex_np : forall e, ~ In e page_exts -> find_node_parser e ps = find_node_parser e ps'
}.
Lemma more_extends l1 p l2 : functions_only p -> Forall (fun q => ~ clash p q) l2 -> extends (l1 ++ l2) (l1 ++ p :: l2).
Proof.
  intros Fo C. split.
  - intros n f N. rewrite !find_fns, !first_app. cbn [first_of]. destruct (first_of (fn_in n) l1); auto. intros E. destruct (fn_in n p) as [g|] eqn:P; auto. exfalso.
    revert E. induction C as [|q l2 Nq C IH]; cbn [first_of]; [discriminate|]. destruct (fn_in n q) eqn:Q; auto. intros _.
    apply Nq. left. exists n. split; auto. split; eapply fn_offers; eauto.
  - intros e N. rewrite !find_nps, !first_app. cbn [first_of]. destruct (first_of (np_in e) l1); auto. destruct (np_in e p) eqn:P; auto. apply np_handles, Fo in P. contradiction.
Qed.
Lemma html_more ext t t' file : (forall n f, ~ In n builtin_names -> find_plugin n t = Some f -> find_plugin n t' = Some f) ->
  forall input ks, parse_html ext t file input = Ok ks -> parse_html ext t' file input = Ok ks.
Proof.
  intros F input. unfold parse_html. generalize (location (parser_new input)) (parser_new input). generalize (S (length input)).
  assert (R : forall raw g, resolve t raw = Ok g -> resolve t' raw = Ok g).
  { intros raw g. unfold resolve. destruct (find_builtin (rf_name raw) function_parsers) eqn:E; [auto|]. destruct (find_plugin (rf_name raw) t) eqn:G; [|discriminate].
    rewrite (F _ _ (fun B => proj1 (builtin_found _) B E) G). auto. }
  assert (T : forall p x, parse_tag ext t file p = Ok x -> parse_tag ext t' file p = Ok x).
  { intros p x. unfold parse_tag. destruct (location _). assert (E : forall q y, parse_function ext t file q = Ok y -> parse_function ext t' file q = Ok y).
    { intros q y. unfold parse_function. destruct (location q). destruct (extract_while _ q) as [nm q1]. destruct nm; auto. destruct (p_expect _ _ _); auto. cbn [bind].
      destruct (parse_args _ _ _ _ _ _) as [[[pos named] q4]| | |]; auto. cbn [bind]. destruct (resolve t _) eqn:E; cbn [map_err bind]; try discriminate. now rewrite (R _ _ E). }
    destruct (p_peek _) as [c|]; auto. destruct (c =? c_dollar)%N; auto. destruct (parse_function ext t _ _) eqn:E'; try discriminate. now rewrite (E _ _ E'). }
  induction n as [|n IH]; intros pos p ks; cbn [html_loop]; [discriminate|]. destruct (extract_until _ _ _) as [[raw|] p1]; auto.
  destruct (parse_tag ext t file p1) as [[tk p2]| | |] eqn:E; cbn [bind]; try discriminate. rewrite (T _ _ E). cbn [bind].
  destruct (html_loop n ext t _ _ _) eqn:E'; cbn [bind]; try discriminate. now rewrite (IH pos _ _ E').
Qed.
Lemma markdown_more ext t t' file : (forall n f, ~ In n builtin_names -> find_plugin n t = Some f -> find_plugin n t' = Some f) ->
  forall input m, parse_markdown ext t file input = Ok m -> parse_markdown ext t' file input = Ok m.
Proof.
  intros F input m. unfold parse_markdown. match goal with |- bind ?x _ = _ -> _ => destruct x as [[n fm]| | |] end; cbn [bind]; auto.
  destruct (parse_html _ t _ _) eqn:E; cbn [bind]; try discriminate. now rewrite (html_more _ _ _ _ F _ _ E).
Qed.
Lemma map_more {A B E} (f g : A -> res E B) l : Forall (fun x => forall y, f x = Ok y -> g x = Ok y) l -> forall ys, map_res f l = Ok ys -> map_res g l = Ok ys.
Proof.
  induction 1 as [|x l E1 F IH]; cbn [map_res]; auto. intros ys. destruct (f x) eqn:Ex; cbn [bind]; try discriminate. rewrite (E1 _ eq_refl). cbn [bind].
  destruct (map_res f l) eqn:El; cbn [bind]; try discriminate. now rewrite (IH _ eq_refl).
Qed.
Lemma create_more h ps ps' parse : extends ps ps' -> forall e p name t, create_from h ps parse p name e = Ok t -> create_from h ps' parse p name e = Ok t.
Proof.
  intros A. fix IH 1. intros [b|l|] p name t; cbn [create_from]; [clear IH| |discriminate].
  - unfold create_from_file. destruct parse; auto. destruct (extension name) as [e|]; auto.
    destruct (text_eqb e (lit "html")) eqn:E1.
    { destruct (ok_or _ _); cbn [bind]; auto. destruct (parse_html _ (fns ps) _ _) eqn:E; cbn [map_err bind]; try discriminate. now rewrite (html_more _ _ _ _ (ex_fn _ _ A) _ _ E). }
    destruct (text_eqb e (lit "md")) eqn:E2.
    { destruct (ok_or _ _); cbn [bind]; auto. destruct (parse_markdown _ (fns ps) _ _) eqn:E; cbn [map_err bind]; try discriminate. now rewrite (markdown_more _ _ _ _ (ex_fn _ _ A) _ _ E). }
    destruct (text_eqb e (lit "json")) eqn:E3; auto. now rewrite (ex_np _ _ A e (not_page _ E1 E2 E3)).
  - match goal with |- context [map_res ?f l] => destruct (map_res f l) eqn:E; cbn [bind]; try discriminate end.
    rewrite (map_more _ (fun ne => create_from h ps' parse (p ++ [fst ne]) (fst ne) (snd ne)) l) with (2 := E); [auto|].
    clear - IH. revert l. fix IHl 1. intros [|x l]; constructor; [apply IH|apply IHl].
Qed.
Lemma bam_more m c d ps st u : extends (st_plugins (cx_stuart c)) ps -> build_and_merge m c d = (st, Ok u) -> build_and_merge m (with_plugins ps c) d = (replug ps st, Ok u).
Proof.
  intros A. unfold build_and_merge. cbn [with_plugins cx_mode cx_dir cx_stuart]. change (Stuart _ _ _ _ ps) with (replug ps (cx_stuart c)).
  destruct (build _ _ _ _ (cx_stuart c)) as [st1 [v| | |]] eqn:B; try discriminate. intros M.
  assert (B' : build (m_host m) (m_osenv m) (cx_mode c) (source_at (cx_dir c ++ [lit "content"]) d) (replug ps (cx_stuart c)) = (replug ps st1, Ok v)).
  { revert B. unfold build. cbn [replug st_plugins st_config st_output]. destruct (node_new _ (st_plugins _) _ _ _ _) as [i| | |] eqn:N; try discriminate.
    assert (N' : node_new (m_host m) ps true (sd_path (source_at (cx_dir c ++ [lit "content"]) d)) (sd_name (source_at (cx_dir c ++ [lit "content"]) d)) (sd_ent (source_at (cx_dir c ++ [lit "content"]) d)) = Ok i).
    { revert N. unfold node_new. destruct (sd_ent _) as [[|l|]|]; try discriminate. now apply create_more. }
    rewrite N'. destruct (preprocess _ _); try discriminate. destruct (build_tree _ _ _ _) as [[? ?]| | |]; try discriminate. intros H. injection H as <- <-. reflexivity. }
  rewrite B'. rewrite dirs_replug, M. reflexivity.
Qed.
Lemma more_same m f c d l1 p l2 c1 d1 : functions_only p -> Forall (fun q => ~ clash p q) l2 ->
  cli_build m f (with_plugins (l1 ++ l2) c) d = (c1, d1, COk) -> cli_build m f (with_plugins (l1 ++ p :: l2) c) d = (with_plugins (l1 ++ p :: l2) c1, d1, COk).
Proof.
  intros Fo C H. pose proof (more_extends l1 p l2 Fo C) as A. change (with_plugins (l1 ++ p :: l2) c) with (with_plugins (l1 ++ p :: l2) (with_plugins (l1 ++ l2) c)).
  set (c0 := with_plugins (l1 ++ l2) c) in *. set (ps := l1 ++ p :: l2) in *. revert H. unfold cli_build. cbn [with_plugins cx_pre cx_post cx_dir cx_output].
  destruct (run_scripts _ (cx_pre c0) d) as [e1 [x|]]; [discriminate|].
  change (Context _ _ _ _ _ _) with (with_plugins ps c0). destruct (build_and_merge m c0 e1) as [st1 [u| | |]] eqn:B; try discriminate.
  rewrite (bam_more _ c0 _ ps _ _ A B).
  change (save (fl_save f) (replug ps st1)) with (save (fl_save f) st1). destruct (save _ _ _ _) as [d3 [v| | |]]; try discriminate.
  change (cf_meta (st_config (replug ps st1))) with (cf_meta (st_config st1)). change (save_metadata (m_ser m) (fl_meta f) (replug ps st1)) with (save_metadata (m_ser m) (fl_meta f) st1).
  destruct (if cf_meta _ then _ else _) as [d4 [w| | |]]; try discriminate.
  destruct (run_scripts _ (cx_post c0) d4) as [d5 [x|]]; [discriminate|]. intros H. injection H as <- <-. reflexivity.
Qed.

(** ** Qualified names *)
Lemma qualified_inj P Q f g : plain_name f -> plain_name g -> P ++ lit "::" ++ f = Q ++ lit "::" ++ g -> P = Q /\ f = g.
Proof.
  intros Pf Pg E. change (lit "::") with [c_colon; c_colon] in E.
  assert (W : forall X Y u v, plain_name v -> X ++ [c_colon; c_colon] ++ u = Y ++ [c_colon; c_colon] ++ v -> forall l, X = Y ++ l -> l = []).
  { intros X Y u v Pv E0 l ->. rewrite <- app_assoc in E0. apply app_inv_head in E0. destruct l as [|x [|y l]]; auto; exfalso; apply Pv.
    - cbn in E0. injection E0 as E1 E2. rewrite <- E2. now left.
    - cbn in E0. injection E0 as _ _ E2. rewrite <- E2. apply in_or_app. right. now left. }
  destruct (app_eq_app _ _ _ _ E) as (l & [[H _]|[H _]]).
  - pose proof (W P Q f g Pg E l H). subst l. rewrite app_nil_r in H. subst P. split; auto. apply app_inv_head in E. now injection E.
  - pose proof (W Q P g f Pf (eq_sym E) l H). subst l. rewrite app_nil_r in H. subst Q. split; auto. apply app_inv_head in E. now injection E.
Qed.
Lemma qualified_not_builtin n f : ~ In (n ++ lit "::" ++ f) builtin_names.
Proof.
  intros I. assert (C : In c_colon (n ++ lit "::" ++ f)) by (apply in_or_app; right; now left). revert C. generalize dependent (n ++ lit "::" ++ f). intros t I C.
  cbn in I. repeat (destruct I as [<-|I]; [vm_compute in C; intuition discriminate|]). destruct I.
Qed.
Lemma qualified_first l1 p l2 fs1 f fs2 :
  Forall (fun q => pl_name q <> pl_name p) l1 -> (forall q g, In q (l1 ++ p :: l2) -> In g (pl_fns q) -> plain_name (pp_name g)) ->
  pl_fns p = fs1 ++ f :: fs2 -> Forall (fun g => pp_name g <> pp_name f) fs1 ->
  first_plugin (fns (l1 ++ p :: l2)) (pl_name p ++ lit "::" ++ pp_name f) f.
Proof.
  intros N1 Pl Ef Nf. set (nm := pl_name p ++ lit "::" ++ pp_name f).
  assert (Pf : plain_name (pp_name f)). { apply (Pl p); [apply in_or_app; right; now left|rewrite Ef; apply in_or_app; right; now left]. }
  assert (An : forall q g, In q (l1 ++ p :: l2) -> In g (pl_fns q) -> answers nm (pl_name q) g -> pl_name p = pl_name q /\ pp_name f = pp_name g).
  { intros q g Iq Ig [E|E].
    - exfalso. apply (Pl q g Iq Ig). rewrite <- E. unfold nm. apply in_or_app. right. now left.
    - apply qualified_inj; eauto. }
  exists (flat_table (fns l1) ++ map (fun g => (pl_name p, g)) fs1), (pl_name p), (map (fun g => (pl_name p, g)) fs2 ++ flat_table (fns l2)). split; [|split].
  - unfold flat_table, fns. rewrite map_app, flat_map_app. cbn [map flat_map fst snd]. rewrite Ef, map_app. cbn [map]. now rewrite <- !app_assoc.
  - now right.
  - apply Forall_app. split; apply Forall_forall; intros [n g] I A; cbn [fst snd] in A.
    + unfold flat_table, fns in I. apply in_flat_map in I as (x & Ix & Ig). apply in_map_iff in Ix as (q & <- & Iq). cbn [fst snd] in Ig. apply in_map_iff in Ig as (g' & E & Ig).
      injection E as <- <-. destruct (An q g') as [E _]; auto; [apply in_or_app; now left|]. rewrite Forall_forall in N1. now apply (N1 q).
    + apply in_map_iff in I as (g' & E & Ig). injection E as <- <-. destruct (An p g') as [_ E]; auto; [apply in_or_app; right; now left|rewrite Ef; apply in_or_app; now left|].
      rewrite Forall_forall in Nf. now apply (Nf g').
Qed.
Lemma qualified_call ext file l1 p l2 fs1 f fs2 pos named b w1 w2 s r :
  Forall (fun q => pl_name q <> pl_name p) l1 -> (forall q g, In q (l1 ++ p :: l2) -> In g (pl_fns q) -> plain_name (pp_name g)) ->
  pl_fns p = fs1 ++ f :: fs2 -> Forall (fun g => pp_name g <> pp_name f) fs1 ->
  can_precede_tag s -> blank w1 -> blank w2 -> tag_body ext (GCall (pl_name p ++ lit "::" ++ pp_name f) pos named) b ->
  let t := escape s ++ open_tag ++ w1 ++ b ++ w2 ++ close_tag ++ escape r in
  match pp_parse f (RawFn (pl_name p ++ lit "::" ++ pp_name f) pos named) with
  | inr g => exists toks, parse_html ext (fns (l1 ++ p :: l2)) file t = Ok toks /\
               map t_inner toks = raw_part s ++ TFun (FPlugin g) :: raw_part r
  | inl e => fails_with e (parse_html ext (fns (l1 ++ p :: l2)) file t)
  end.
Proof.
  intros N1 Pl Ef Nf Cp B1 B2 T. apply parse_one_plugin; auto; [apply qualified_not_builtin|]. eapply qualified_first; eauto.
Qed.
