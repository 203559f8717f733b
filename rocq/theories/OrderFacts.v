(** OrderFacts.v -- what does not depend on the order in which directories list their entries (C73). *)

From Coq Require Import String List NArith ZArith Bool Lia Permutation Sorting.Sorted.
From Verif Require Import Text TextFacts Utf8 Json Base Syntax Parse Tree Interp Build SpecTemplate SpecScope SpecRender SpecPage SpecLoop SpecMarkdown SpecTree SpecSite SpecOrder.
From Verif Require Import Disk Cli SpecDisk.
From Verif Require Import Utf8Facts InterpFacts ScopeFacts SelectFacts MarkdownFacts TreeFacts PathFacts SiteFacts ViewFacts LocalFacts SaveFacts.
Import ListNotations.

(** ** Lists *)
Lemma map_res_perm {X A B} (f : A -> res X B) l l' r : Permutation l l' -> map_res f l = Ok r -> exists r', map_res f l' = Ok r' /\ Permutation r r'.
Proof.
  intros P. revert r. induction P as [|x l l' P IH|x y l|l l' l'' P1 IH1 P2 IH2]; intros r E.
  - injection E as <-. now exists [].
  - apply map_res_ok in E. inversion E as [|? y ? r0 F R]; subst. apply map_res_ok in R. destruct (IH _ R) as (r' & E' & Pr). exists (y :: r'). split; [|now constructor].
    apply map_res_ok. constructor; [exact F|]. now apply map_res_ok.
  - apply map_res_ok in E. inversion E as [|? a ? r0 F R]; subst. inversion R as [|? b ? r1 F' R']; subst. exists (b :: a :: r1). split; [|constructor].
    apply map_res_ok. now repeat constructor.
  - destruct (IH1 _ E) as (r1 & E1 & Q1). destruct (IH2 _ E1) as (r2 & E2 & Q2). exists r2. split; [exact E2|]. now transitivity r1.
Qed.
Lemma sorted_unique {A} (key : A -> text) (l l' : list A) : Permutation l l' -> NoDup (map key l) ->
  StronglySorted (fun a b => lex_le (key a) (key b)) l -> StronglySorted (fun a b => lex_le (key a) (key b)) l' -> l = l'.
Proof.
  revert l'. induction l as [|x l IH]; intros l' P D S S'.
  - apply Permutation_nil in P. now subst.
  - destruct l' as [|y l']; [now apply Permutation_sym, Permutation_nil in P|]. inversion S as [|? ? S1 F1]; subst. inversion S' as [|? ? S1' F1']; subst.
    cbn [map] in D. inversion D as [|? ? D1 D2]; subst. rewrite Forall_forall in F1, F1'.
    assert (x = y).
    { assert (Ix : In x (y :: l')) by (eapply Permutation_in; [exact P|now left]). assert (Iy : In y (x :: l)) by (eapply Permutation_in; [apply Permutation_sym; exact P|now left]).
      destruct Ix as [Ix|Ix]; [auto|]. destruct Iy as [Iy|Iy]; [auto|]. exfalso. apply D1.
      rewrite (lex_le_antisym _ _ (F1 _ Iy) (F1' _ Ix)). now apply in_map. }
    subst y. f_equal. apply IH; auto. now apply Permutation_cons_inv in P.
Qed.

(** ** What a loop visits *)
Definition no_ties (f : for_fn) (vs : list value) : Prop :=
  (length vs <= 1)%nat \/ exists name, ff_sort f = Some name /\ NoDup (map (sort_key name) vs).
Lemma select_perm f vs vs' : no_ties f vs -> Permutation vs vs' -> select f vs' = select f vs.
Proof.
  intros [L|(name & N & D)] P.
  - assert (vs' = vs) as ->; [|reflexivity]. destruct vs as [|x [|y vs]]; [now apply Permutation_nil in P|now apply Permutation_length_1_inv in P|cbn in L; lia].
  - unfold select. rewrite N. destruct (sort_stable (sort_key name) vs) as (P1 & S1 & _), (sort_stable (sort_key name) vs') as (P2 & S2 & _).
    assert (E : sort_by (sort_key name) vs = sort_by (sort_key name) vs').
    { apply (sorted_unique (sort_key name)); auto.
      - etransitivity; [apply Permutation_sym; exact P1|]. etransitivity; [exact P|exact P2].
      - eapply Permutation_NoDup; [apply Permutation_map; exact P1|exact D]. }
    now rewrite E.
Qed.

(** ** Trees *)
Lemma reordered_name n n' : reordered n n' -> n_name n' = n_name n /\ n_parsed n' = n_parsed n /\ is_dir n' = is_dir n /\ html_of n' = html_of n.
Proof. destruct 1; repeat split. Qed.
Lemma reordered_names ch ch1 : Forall2 reordered ch ch1 -> map n_name ch1 = map n_name ch.
Proof. induction 1 as [|x y ch ch1 R F IH]; cbn [map]; [reflexivity|]. apply reordered_name in R as (-> & _). now rewrite IH. Qed.
Lemma reordered_distinct n : forall n', reordered n n' -> distinct n -> distinct n'.
Proof.
  induction n as [name b p meta src|name ch src IH] using node_ind2; intros n' R D; inversion R as [|? ? ch1 ch2 ? F P]; subst; [constructor|].
  inversion D as [|? ? ? D1 D2]; subst. constructor.
  - eapply Permutation_NoDup; [apply Permutation_map; exact P|]. now rewrite (reordered_names _ _ F).
  - rewrite Forall_forall. intros c Hc. apply Permutation_sym in P. apply (Permutation_in _ P) in Hc. destruct (Forall2_in_r _ _ _ _ F Hc) as (c0 & I0 & R0).
    rewrite Forall_forall in IH, D2. exact (IH _ I0 _ R0 (D2 _ I0)).
Qed.
Lemma find_child_name c ch m : find_child c ch = Some m -> In m ch /\ n_name m = c.
Proof. unfold find_child. intros F. apply find_some in F as [I E]. now apply text_eqb_eq in E. Qed.
Lemma reordered_walk p : forall n n' m, reordered n n' -> distinct n -> Tree.walk n p = Some m -> exists m', Tree.walk n' p = Some m' /\ reordered m m'.
Proof.
  induction p as [|c p IH]; intros n n' m R D W; cbn [Tree.walk] in *; [injection W as <-; now exists n'|].
  destruct n as [|name ch src]; [discriminate|]. cbn [n_children] in W. destruct (find_child c ch) as [x|] eqn:F; [|discriminate]. apply find_child_name in F as [Ix <-].
  assert (D' := reordered_distinct _ _ R D). inversion R as [|? ? ch1 ch2 ? F2 P]; subst. cbn [n_children].
  destruct (Forall2_in_l _ _ _ _ F2 Ix) as (y & Iy & Ry). apply (Permutation_in _ P) in Iy. inversion D' as [|? ? ? D1' _]; subst.
  destruct (reordered_name _ _ Ry) as (<- & _). rewrite (find_child_in _ _ D1' Iy). inversion D as [|? ? ? _ D2]; subst. rewrite Forall_forall in D2. now apply (IH x y); auto.
Qed.
Lemma md_values_res {X} ch vs : md_values (E := X) ch = Ok vs -> forall ch', Permutation ch ch' -> exists vs', md_values (E := X) ch' = Ok vs' /\ Permutation vs vs'.
Proof.
  intros H ch' P. revert vs H. induction P as [|x l l' P IH|x y l|l l' l'' P1 IH1 P2 IH2]; intros vs H.
  - injection H as <-. now exists [].
  - cbn [md_values] in *. destruct (n_parsed x) as [t|m|v|c| |]; try (now apply IH). destruct (md_to_value m) as [v| | |]; cbn [bind] in *; try discriminate.
    destruct (md_values l) as [r| | |]; cbn [bind] in *; try discriminate. injection H as <-. destruct (IH _ eq_refl) as (r' & -> & Pr). exists (v :: r'). split; [reflexivity|now constructor].
  - cbn [md_values] in *. destruct (n_parsed x) as [t|m|v|c| |], (n_parsed y) as [t'|m'|v'|c'| |]; try (exists vs; split; [exact H|reflexivity]).
    destruct (md_to_value m') as [v'| | |]; cbn [bind] in *; try discriminate. destruct (md_to_value m) as [v| | |]; cbn [bind] in *; try discriminate.
    destruct (md_values l) as [r| | |]; cbn [bind] in *; try discriminate. injection H as <-. eexists. split; [reflexivity|constructor].
  - destruct (IH1 _ H) as (r1 & E1 & Q1). destruct (IH2 _ E1) as (r2 & E2 & Q2). exists r2. split; [exact E2|]. now transitivity r1.
Qed.
Lemma md_values_reordered {E} ch ch1 : Forall2 reordered ch ch1 -> md_values (E := E) ch1 = md_values ch.
Proof. induction 1 as [|x y ch ch1 R F IH]; [reflexivity|]. cbn [md_values]. destruct (reordered_name _ _ R) as (_ & -> & _). now rewrite IH. Qed.

(** ** Running tokens *)
(** The loops of [toks] leave no ties in the tree. *)
Definition tokens_sorted (site : node) (toks : list ltoken) : Prop :=
  forall t f nm ch src (vs : list value), In t toks -> t_inner t = TFun (FFor f) -> ff_type f = SrcDir -> get_at_path site (ff_src f) = Some (NDir nm ch src) ->
    md_values (E := process_error) ch = Ok vs -> no_ties f vs.
Lemma reordered_views h n n' toks : reordered n n' -> distinct n -> tokens_sorted n toks -> views (World h n toks) (World h n' toks).
Proof.
  intros R D S. split; auto; cbn [w_toks].
  - intros t f st vs I T. unfold for_values. cbn [w_input]. destruct (ff_type f) eqn:Ty; [| |intros E; now exists vs].
    + unfold get_at_path. destruct (components (ff_src f)) as [l|] eqn:C; [|discriminate]. destruct (Tree.walk n l) as [m|] eqn:W; [|discriminate].
      destruct (reordered_walk _ _ _ _ R D W) as (m' & -> & Rm). inversion Rm as [|nm ch ch1 ch2 src F P]; subst; [discriminate|]. intros E.
      rewrite <- (md_values_reordered _ _ F) in E. destruct (md_values_res _ _ E _ P) as (vs' & E' & Pv). exists vs'. split; [exact E'|].
      apply select_perm; [|exact Pv]. rewrite (md_values_reordered _ _ F) in E. eapply S; try eassumption. unfold get_at_path. rewrite C. exact W.
    + unfold get_at_path. destruct (components (ff_src f)) as [l|]; [|discriminate]. destruct (Tree.walk n l) as [m|] eqn:W; [|discriminate].
      destruct (reordered_walk _ _ _ _ R D W) as (m' & -> & Rm). inversion Rm; subst; [|discriminate]. intros E. now exists vs.
  - intros v file s s' I T. unfold exec_import, get_at_path. cbn [w_input]. destruct (components _) as [l|]; auto. destruct (Tree.walk n l) as [m|] eqn:W; [|discriminate].
    destruct (reordered_walk _ _ _ _ R D W) as (m' & -> & Rm). inversion Rm; subst; auto; discriminate.
Qed.
Lemma reordered_pr h meta vars n n' : reordered n n' -> distinct n -> pr_views (tokens_sorted n) (build_pr h meta vars n) (build_pr h meta vars n').
Proof. intros R D. split; [reflexivity|]. split; [reflexivity|]. exists n, n'. split; [reflexivity|]. split; [reflexivity|]. intros toks S. now apply reordered_views. Qed.

(** ** Loading *)
Lemma shuffled_create h ps e : forall e' p nm n, shuffled e e' -> create_from h ps true p nm e = Ok n -> exists n', create_from h ps true p nm e' = Ok n' /\ reordered n n'.
Proof.
  induction e as [b| |l IH] using ent_ind2; intros e' p nm n Sh C; inversion Sh as [| |? l1 l2 F P]; subst.
  - exists n. split; [exact C|]. cbn [create_from] in C. destruct (create_file_kind _ _ _ _ _ _ C) as (pc & -> & _). constructor.
  - discriminate C.
  - cbn [create_from] in *. destruct (map_res _ l) as [ch|x|q|] eqn:M; cbn [bind] in C; try discriminate. injection C as <-.
    assert (X : exists ch1, map_res (fun ne => create_from h ps true (p ++ [fst ne]) (fst ne) (snd ne)) l1 = Ok ch1 /\ Forall2 reordered ch ch1).
    { clear Sh P. apply map_res_ok in M. revert l1 F IH. induction M as [|[k e] c l ch Ec M IHM]; intros l1 F IH; inversion F as [|? [k' e'] ? l1' [Ek Se] F']; subst; [exists []; split; [reflexivity|constructor]|].
      cbn [fst snd] in *. subst k'. inversion IH as [|? ? I1 I2]; subst. destruct (I1 _ _ _ _ Se Ec) as (c' & Ec' & Rc). destruct (IHM _ F' I2) as (ch1 & M1 & F1).
      exists (c' :: ch1). split; [|now constructor]. apply map_res_ok. constructor; [exact Ec'|]. now apply map_res_ok. }
    destruct X as (ch1 & M1 & F1). destruct (map_res_perm _ _ _ _ P M1) as (ch2 & M2 & P2). rewrite M2. cbn [bind]. eexists. split; [reflexivity|]. econstructor; eassumption.
Qed.
(** A tree whose markdown is not rendered yet. *)
Definition fresh (n : node) : Prop := forall m x, inside m n -> n_parsed m = PMarkdown x -> md_html x = None.
Lemma fresh_values {E} ch vs : (forall c x, In c ch -> n_parsed c = PMarkdown x -> md_html x = None) -> md_values (E := E) ch = Ok vs -> vs = [].
Proof.
  revert vs. induction ch as [|c ch IH]; intros vs H E0; [now injection E0 as <-|]. cbn [md_values] in E0. assert (IH' := IH vs (fun c x I => H c x (or_intror I))).
  destruct (n_parsed c) as [t|m|v|x| |] eqn:N; try (now apply IH'). unfold md_to_value in E0. now rewrite (H c m (or_introl eq_refl) N) in E0.
Qed.
Lemma created_fresh h ps e : forall p nm n, create_from h ps true p nm e = Ok n -> fresh n.
Proof.
  induction e as [b| |l IH] using ent_ind2; intros p nm n C; cbn [create_from] in C; [|discriminate|].
  - destruct (create_file_kind _ _ _ _ _ _ C) as (pc & -> & K). intros m x Im Pm. inversion Im; subst. cbn [n_parsed] in Pm. subst pc.
    destruct K as [(X & t & E)|[(X & m & E & N)|[(X & v & E)|[(ext & np & c & X & N1 & N2 & N3 & _ & _ & E)|(E & N)]]]]; try discriminate E. injection E as <-. exact N.
  - destruct (map_res _ l) as [ch|x|q|] eqn:M; cbn [bind] in C; try discriminate. injection C as <-. intros m x Im Pm. inversion Im as [|? ? ? ? c Ic Im']; subst; [discriminate Pm|].
    apply map_res_ok in M. destruct (Forall2_in_r _ _ _ _ M Ic) as ([k e] & I1 & Ec). rewrite Forall_forall in IH. exact (IH _ I1 _ _ _ Ec m x Im' Pm).
Qed.
Lemma fresh_sorted n toks : fresh n -> tokens_sorted n toks.
Proof.
  intros F t f nm ch src vs _ _ _ G M. left. enough (vs = []) as -> by (cbn; lia). refine (fresh_values ch vs _ M). intros c x Ic Pc. apply (F c x); [|exact Pc].
  eapply inside_trans; [|eapply get_at_path_inside; exact G]. econstructor; [exact Ic|constructor].
Qed.
Lemma reordered_preprocess pr pr' n : pr_views (fun _ => True) pr pr' -> forall n' n1, reordered n n' -> preprocess pr n = Ok n1 -> exists n1', preprocess pr' n' = Ok n1' /\ reordered n1 n1'.
Proof.
  intros V. induction n as [name b p meta src|name ch src IH] using node_ind2; intros n' n1 R E; inversion R as [|? ? ch1 ch2 ? F P]; subst.
  - exists n1. pose proof (preprocess_view _ _ _ _ V E) as E'. split; [exact E'|]. destruct (file_preprocess pr (NFile name b p meta src) n1 eq_refl E) as [_ X]. destruct n1; [constructor|discriminate X].
  - cbn [preprocess] in *. destruct (map_res _ ch) as [r|x|q|] eqn:M; cbn [bind] in E; try discriminate. injection E as <-.
    assert (X : exists r1, map_res (preprocess pr') ch1 = Ok r1 /\ Forall2 reordered r r1).
    { clear R P. apply map_res_ok in M. revert ch1 F IH. induction M as [|c c' ch r Ec M IHM]; intros ch1 F IH; inversion F as [|? y ? ch1' Rc F']; subst; [exists []; split; [reflexivity|constructor]|].
      inversion IH as [|? ? I1 I2]; subst. destruct (I1 _ _ Rc Ec) as (y' & Ey & Ry). destruct (IHM _ F' I2) as (r1 & M1 & F1).
      exists (y' :: r1). split; [|now constructor]. apply map_res_ok. constructor; [exact Ey|]. now apply map_res_ok. }
    destruct X as (r1 & M1 & F1). destruct (map_res_perm _ _ _ _ P M1) as (r2 & M2 & P2). rewrite M2. cbn [bind]. eexists. split; [reflexivity|]. econstructor; eassumption.
Qed.

(** ** Building *)
Lemma child_unique ch a b : NoDup (map n_name ch) -> In a ch -> In b ch -> n_name a = n_name b -> a = b.
Proof. intros D A B E. assert (X := find_child_in _ _ D A). rewrite E, (find_child_in _ _ D B) in X. now injection X. Qed.
Lemma env_eq e ch ch' : (forall t r, (exists m, In m ch /\ n_name m = t /\ html_of m = r) <-> (exists m, In m ch' /\ n_name m = t /\ html_of m = r)) -> NoDup (map n_name ch) -> env_update e ch' = env_update e ch.
Proof.
  intros H D. destruct (env_update_root ch e) as (V & R & M), (env_update_root ch' e) as (V' & R' & M').
  assert (X : forall t (g : env -> option (list ltoken)), ((exists n, In n ch /\ n_name n = t /\ g (env_update e ch) = html_of n) \/ (~ In t (map n_name ch) /\ g (env_update e ch) = g e)) ->
    ((exists n, In n ch' /\ n_name n = t /\ g (env_update e ch') = html_of n) \/ (~ In t (map n_name ch') /\ g (env_update e ch') = g e)) -> g (env_update e ch') = g (env_update e ch)).
  { intros t g [(n & I1 & N1 & ->)|[N1 ->]] [(n' & I1' & N1' & ->)|[N1' ->]]; [| | |reflexivity].
    - destruct (proj2 (H t (html_of n'))) as (m & I2 & N2 & <-); [now exists n'|]. f_equal. eapply child_unique; eauto; congruence.
    - destruct (proj1 (H t (html_of n))) as (m & I2 & N2 & _); [now exists n|]. destruct N1'. rewrite <- N2. now apply in_map.
    - destruct (proj2 (H t (html_of n'))) as (m & I2 & N2 & _); [now exists n'|]. destruct N1. rewrite <- N2. now apply in_map. }
  apply (X _ ev_root R) in R'. apply (X _ ev_md M) in M'. destruct (env_update e ch') as [a b c], (env_update e ch) as [a' b' c']. cbn [ev_vars ev_root ev_md] in *. congruence.
Qed.
Lemma env_reordered e ch ch1 ch2 : Forall2 reordered ch ch1 -> Permutation ch1 ch2 -> NoDup (map n_name ch) -> env_update e ch2 = env_update e ch.
Proof.
  intros F P D. apply env_eq; [|exact D]. intros t r. split; intros (m & I1 & <- & <-).
  - destruct (Forall2_in_l _ _ _ _ F I1) as (y & Iy & Ry). exists y. destruct (reordered_name _ _ Ry) as (-> & _ & _ & ->). split; [now apply (Permutation_in _ P)|now split].
  - apply Permutation_sym in P. apply (Permutation_in _ P) in I1. destruct (Forall2_in_r _ _ _ _ F I1) as (y & Iy & Ry). exists y. destruct (reordered_name _ _ Ry) as (-> & _ & _ & ->). now repeat split.
Qed.
Lemma process_same (P : list ltoken -> Prop) pr pr' e name b pc src o : pr_views P pr pr' -> pr_meta pr' = pr_meta pr -> env_in P e -> (forall t, pc = PHtml t -> P t) ->
  process_file pr e name b pc src = Ok o -> process_file pr' e name b pc src = Ok o.
Proof.
  intros V Mt En Pt. unfold process_file. rewrite Mt. destruct (is_template_name name); [auto|]. destruct pc as [t|m|v|c| |]; auto.
  - destruct (process_html pr e src t) as [x| | |] eqn:Q; cbn [map_err bind]; try discriminate.
    pose proof (render_view _ _ _ e src (PageHtml t) x V En) as Y. cbn [render_page] in Y. rewrite Y; auto. intros t0 E0. injection E0 as <-. now apply Pt.
  - destruct (process_markdown pr e src name m) as [x| | |] eqn:Q; cbn [map_err bind]; try discriminate.
    pose proof (render_view _ _ _ e src (PageMd name m) x V En) as Y. cbn [render_page] in Y. rewrite Y; auto. intros t0 E0. discriminate E0.
Qed.
Definition pages_in (P : list ltoken -> Prop) (n : node) : Prop := forall m t, inside m n -> n_parsed m = PHtml t -> P t.
Lemma env_in_update P e ch : env_in P e -> (forall c t, In c ch -> n_parsed c = PHtml t -> P t) -> env_in P (env_update e ch).
Proof.
  intros [Er Em] H. destruct (env_update_root ch e) as (_ & R & M).
  assert (X : forall c t, In c ch -> html_of c = Some t -> P t). { intros c t Ic Hc. apply (H c t Ic). destruct c as [? ? [] ? ?|]; try discriminate Hc. cbn in *. congruence. }
  split; intros t T.
  - destruct R as [(n & I1 & _ & E)|[_ E]]; rewrite E in T; [now apply (X n)|now apply Er].
  - destruct M as [(n & I1 & _ & E)|[_ E]]; rewrite E in T; [now apply (X n)|now apply Em].
Qed.
Lemma reordered_build P pr pr' n : pr_views P pr pr' -> pr_meta pr' = pr_meta pr -> forall n' e out, reordered n n' -> distinct n -> pages_in P n -> env_in P e ->
  build_node pr e n = Ok out -> exists out', build_node pr' e n' = Ok out' /\ reordered out out'.
Proof.
  intros V Mt. induction n as [name b p meta src|name ch src IH] using node_ind2; intros n' e out R D Pg En B; inversion R as [|? ? ch1 ch2 ? F Pm]; subst.
  - cbn [build_node] in *. exists out. split; [|unfold process_file in B; destruct (if is_template_name name then _ else _) as [x| | |]; cbn [bind] in B; try discriminate; injection B as <-; constructor].
    apply (process_same P pr); auto. intros t ->. eapply Pg; [constructor|reflexivity].
  - cbn [build_node] in *. inversion D as [|? ? ? D1 D2]; subst. rewrite (env_reordered e _ _ _ F Pm D1).
    assert (En' : env_in P (env_update e ch)). { apply env_in_update; [exact En|]. intros c t Ic. apply Pg. econstructor; [exact Ic|constructor]. }
    revert B En'. generalize (env_update e ch). intros e' B En'. destruct (map_res _ ch) as [r|x|q|] eqn:M; cbn [bind] in B; try discriminate. injection B as <-.
    assert (Pc : Forall (pages_in P) ch). { rewrite Forall_forall. intros c Ic m t Im. apply Pg. now econstructor; [exact Ic|]. }
    assert (X : exists r1, map_res (build_node pr' e') ch1 = Ok r1 /\ Forall2 reordered r r1).
    { clear R Pm D D1 Pg. apply map_res_ok in M. revert ch1 F IH D2 Pc. induction M as [|c c' ch r Ec M IHM]; intros ch1 F IH D2 Pc; inversion F as [|? y ? ch1' Rc F']; subst; [exists []; split; [reflexivity|constructor]|].
      inversion IH as [|? ? I1 I2]; subst. inversion D2; subst. inversion Pc; subst. destruct (I1 y e' c') as (y' & Ey & Ry); auto. destruct (IHM _ F' I2) as (r1 & M1 & F1); auto.
      exists (y' :: r1). split; [|now constructor]. apply map_res_ok. constructor; [exact Ey|]. now apply map_res_ok. }
    destruct X as (r1 & M1 & F1). destruct (map_res_perm _ _ _ _ Pm M1) as (r2 & M2 & P2). rewrite M2. cbn [bind]. eexists. split; [reflexivity|]. econstructor; eassumption.
Qed.

(** ** Front matter *)
Lemma parsed_parts ext plugins file t m : parse_markdown ext plugins file t = Ok m -> exists body, md_parts t (md_front m) body.
Proof.
  intros H. destruct (opens_dec t) as [Ho|Ho].
  - destruct (markdown_cases t Ho) as (fs & kvs & H1 & H2 & [HT|[(d & body & Hd & HT)|(bad & rest & Hb & Hp & HT)]]).
    + rewrite (markdown_unclosed ext plugins file t _ fs kvs Ho HT eq_refl H1 H2) in H. discriminate.
    + rewrite (markdown_front ext plugins file t _ fs kvs d body Ho HT eq_refl H1 H2 Hd) in H. apply md_result_ok in H as (toks & E & ->). exists (with_lf body). right.
      split; [exact Ho|]. exists fs, d, body. repeat split; assumption.
    + rewrite (markdown_bad_line ext plugins file t _ fs kvs bad rest Ho HT eq_refl H1 H2 Hb Hp) in H. discriminate.
  - pose proof (lines_spec t) as HL. rewrite (markdown_none ext plugins file t _ Ho HL) in H. apply md_result_ok in H as (toks & E & ->).
    exists (with_lf (lines t)). left. split; [exact Ho|]. split; [reflexivity|]. now exists (lines t).
Qed.
Lemma assoc_set_other k k' x l : k <> k' -> assoc k (set_key k' x l) = assoc k l.
Proof.
  intros N. induction l as [|[j v] l IH]; cbn [set_key assoc].
  - destruct (text_eqb k' k) eqn:E; auto. apply text_eqb_eq in E. congruence.
  - destruct (text_eqb j k') eqn:E; cbn [assoc]; [|now rewrite IH]. apply text_eqb_eq in E. subst j. destruct (text_eqb k' k) eqn:E'; auto. apply text_eqb_eq in E'. congruence.
Qed.
Lemma assoc_front k fm : assoc k (front_value fm) = option_map VStr (assoc k fm).
Proof. induction fm as [|[j v] fm IH]; [reflexivity|]. cbn [front_value map assoc fst snd]. destruct (text_eqb j k); [reflexivity|exact IH]. Qed.
Lemma dotted_split x key : ~ In c_dot x -> ~ In c_dot key -> split_char c_dot (x ++ [c_dot] ++ key) = (x, [key]).
Proof. intros X K. change (x ++ [c_dot] ++ key) with (dotted x [key]). apply split_dotted; [exact X|]. constructor; [exact K|constructor]. Qed.
Lemma sort_front {E} x key m v : ~ In c_dot x -> ~ In c_dot key -> key <> lit "content" -> key <> lit "markdown" -> md_to_value (E := E) m = Ok v ->
  first_binding key (md_front m) (sort_key (x ++ [c_dot] ++ key) v) \/ (sort_key (x ++ [c_dot] ++ key) v = [] /\ ~ In key (map fst (md_front m))).
Proof.
  intros X K C M V. unfold sort_key. rewrite (dotted_split _ _ X K). cbn [snd get_value]. unfold md_to_value in V. destruct (md_html m); [|discriminate]. injection V as <-.
  cbn [snd get_value]. unfold get_step, get_key. rewrite (assoc_set_other _ _ _ _ M), (assoc_set_other _ _ _ _ C), assoc_front. destruct (assoc key (md_front m)) as [s|] eqn:A; cbn [option_map].
  - left. now apply assoc_iff.
  - right. split; [now destruct (parse_usize key)|]. intros I1. clear -A I1. induction (md_front m) as [|[j y] l IH]; [destruct I1|]. cbn [assoc] in A. destruct (text_eqb j key) eqn:E0; [discriminate|].
    destruct I1 as [I1|I1]; [|now apply IH]. cbn in I1. subst j. now rewrite text_eqb_refl in E0.
Qed.

(** ** The loops of the sources *)
Lemma create_md h ps p name b n0 m : create_from_file h ps true p name b = Ok n0 -> n_parsed n0 = PMarkdown m ->
  has_ext name (lit "md") /\ exists t body, utf8_text b t /\ md_parts t (md_front m) body.
Proof.
  intros C Pm. destruct (create_file_kind _ _ _ _ _ _ C) as (pc & -> & K). cbn [n_parsed] in Pm. subst pc.
  destruct K as [(X & t & E)|[(X & m0 & E & N)|[(X & v & E)|[(ext & np & c & X & N1 & N2 & N3 & _ & _ & E)|(E & N)]]]]; try discriminate E. clear E m0 N. split; [exact X|].
  unfold create_from_file in C. rewrite (ext_of _ _ X) in C. change (text_eqb (lit "md") (lit "html")) with false in C. change (text_eqb (lit "md") (lit "md")) with true in C. cbv iota in C.
  destruct (from_utf8 b) as [t|] eqn:U; cbn [ok_or bind] in C; [|discriminate]. destruct (parse_markdown _ _ _ _) as [m'| | |] eqn:Q; cbn [map_err bind] in C; try discriminate. injection C as <-.
  destruct (parsed_parts _ _ _ _ _ Q) as [body MP]. exists t, body. split; [now apply decoding|exact MP].
Qed.
Lemma create_html h ps p name b n0 toks : create_from_file h ps true p name b = Ok n0 -> n_parsed n0 = PHtml toks ->
  has_ext name (lit "html") /\ exists t, utf8_text b t /\ parse_html (h_ext h) (fns ps) p t = Ok toks.
Proof.
  intros C Pm. destruct (create_file_kind _ _ _ _ _ _ C) as (pc & -> & K). cbn [n_parsed] in Pm. subst pc.
  destruct K as [(X & t & E)|[(X & m0 & E & N)|[(X & v & E)|[(ext & np & c & X & N1 & N2 & N3 & _ & _ & E)|(E & N)]]]]; try discriminate E. clear E t. split; [exact X|].
  unfold create_from_file in C. rewrite (ext_of _ _ X), text_eqb_refl in C.
  destruct (from_utf8 b) as [t|] eqn:U; cbn [ok_or bind] in C; [|discriminate]. destruct (parse_html _ _ _ _) as [m'| | |] eqn:Q; cbn [map_err bind] in C; try discriminate. injection C as <-.
  exists t. split; [now apply decoding|exact Q].
Qed.
(** The value of a markdown file, as far as sorting goes. *)
Definition value_from (l : list (text * ent)) (kb : text * bytes) (v : value) : Prop :=
  In (fst kb, EFile (snd kb)) l /\ has_ext (fst kb) (lit "md") /\
  forall x key, ~ In c_dot x -> ~ In c_dot key -> key <> lit "content" -> key <> lit "markdown" -> front_key key (snd kb) (sort_key (x ++ [c_dot] ++ key) v).
Lemma ready_md {E} h ps pr name b n m v : ready_as h ps pr name b n -> n_parsed n = PMarkdown m -> md_to_value (E := E) m = Ok v ->
  has_ext name (lit "md") /\ forall x key, ~ In c_dot x -> ~ In c_dot key -> key <> lit "content" -> key <> lit "markdown" -> front_key key b (sort_key (x ++ [c_dot] ++ key) v).
Proof.
  intros (n0 & (p & C) & Q) Pn V. assert (X : exists m0, n_parsed n0 = PMarkdown m0 /\ md_front m = md_front m0).
  { destruct (create_file_kind _ _ _ _ _ _ C) as (pc & -> & _). cbn [preprocess] in Q. destruct pc as [t|m0|w|c| |]; try (injection Q as <-; discriminate Pn).
    unfold preprocess_markdown in Q. destruct (pr_base pr) as [bf|]; [|discriminate Q]. destruct (phase _ _ _ _) as [s0| | |]; cbn [bind map_err] in Q; try discriminate Q.
    destruct (sc_stack s0); [discriminate Q|]. destruct (is_base f); [|discriminate Q]. destruct (from_utf8 _); cbn [bind map_err] in Q; [|discriminate Q]. injection Q as <-.
    cbn [n_parsed] in Pn. injection Pn as <-. now exists m0. }
  destruct X as (m0 & P0 & Fm). destruct (create_md _ _ _ _ _ _ _ C P0) as (X & t & body & U & MP). split; [exact X|]. intros x key H1 H2 H3 H4. exists t, (md_front m), body.
  rewrite Fm at 1. split; [exact U|]. split; [exact MP|]. exact (sort_front x key m v H1 H2 H3 H4 V).
Qed.
Lemma values_from {E} h ps pr l ch : Forall2 (fun e => stands (ready_as h ps pr) (fst e) (snd e)) l ch -> NoDup (map fst l) -> forall vs, md_values (E := E) ch = Ok vs ->
  exists kbs, Forall2 (value_from l) kbs vs /\ NoDup (map fst kbs) /\ incl (map fst kbs) (map fst l).
Proof.
  induction 1 as [|[k e] c l ch S F IH]; intros D vs M.
  - injection M as <-. exists []. split; [constructor|]. split; [constructor|]. intros x [].
  - cbn [map fst] in D. inversion D as [|? ? D1 D2]; subst. cbn [fst snd] in S.
    assert (Skip : forall vs, md_values (E := E) ch = Ok vs -> exists kbs, Forall2 (value_from ((k, e) :: l)) kbs vs /\ NoDup (map fst kbs) /\ incl (map fst kbs) (map fst l)).
    { intros vs' M'. destruct (IH D2 _ M') as (kbs & F1 & N1 & I1). exists kbs. split; [|now split]. clear -F1. induction F1 as [|kb v kbs vs' (A & B) F1 IHF]; constructor; auto. split; [now right|exact B]. }
    cbn [md_values] in M. destruct (n_parsed c) as [t|m|w|cu| |] eqn:Pc.
    2: { destruct (md_to_value m) as [v| | |] eqn:V; cbn [bind] in M; try discriminate. destruct (md_values ch) as [r| | |]; cbn [bind] in M; try discriminate. injection M as <-.
      destruct (Skip _ eq_refl) as (kbs & F1 & N1 & I1). inversion S as [? b ? R Nm Fc|]; subst; [|discriminate Pc]. destruct (ready_md _ _ _ _ _ _ _ _ R Pc V) as [X K].
      exists ((n_name c, b) :: kbs). split; [constructor; [|exact F1]; split; [now left|split; assumption]|]. cbn [map fst]. split; [constructor; [|exact N1]; intros J; apply D1, I1, J|].
      intros y [<-|J]; [now left|right; now apply I1]. }
    all: destruct (Skip _ M) as (kbs & F1 & N1 & I1); exists kbs; split; [exact F1|]; split; [exact N1|]; intros y J; right; now apply I1.
Qed.
Lemma from_no_ties f l kbs vs : Forall2 (value_from l) kbs vs -> NoDup (map fst kbs) ->
  (forall k1 b1 k2 b2, In (k1, EFile b1) l -> In (k2, EFile b2) l -> has_ext k1 (lit "md") -> has_ext k2 (lit "md") -> k1 <> k2 -> told_apart f b1 b2) -> no_ties f vs.
Proof.
  intros F D T. destruct F as [|[k1 b1] v1 kbs vs V1 F]; [left; cbn; lia|]. destruct F as [|[k2 b2] v2 kbs vs V2 F]; [left; cbn; lia|]. right.
  assert (Y : forall ka ba va kb bb vb, value_from l (ka, ba) va -> value_from l (kb, bb) vb -> ka <> kb -> exists name, ff_sort f = Some name /\ sort_key name va <> sort_key name vb).
  { intros ka ba va kb bb vb (Ia & Xa & Ka) (Ib & Xb & Kb) Nab. cbn [fst snd] in *. destruct (T _ _ _ _ Ia Ib Xa Xb Nab) as (x & key & S & H1 & H2 & H3 & H4 & H5).
    exists (x ++ [c_dot] ++ key). split; [exact S|]. apply H5; [now apply Ka|now apply Kb]. }
  assert (D12 : k1 <> k2). { cbn [map fst] in D. inversion D as [|? ? D1 _]; subst. intros ->. apply D1. now left. }
  destruct (Y _ _ _ _ _ _ V1 V2 D12) as (name & S & _). exists name. split; [exact S|].
  assert (G : Forall2 (value_from l) ((k1, b1) :: (k2, b2) :: kbs) (v1 :: v2 :: vs)) by (constructor; [exact V1|constructor; [exact V2|exact F]]). revert G D. generalize ((k1, b1) :: (k2, b2) :: kbs) as K, (v1 :: v2 :: vs) as W.
  clear - Y S. induction 1 as [|[k b] v K W V G IH]; intros D; [constructor|]. cbn [map fst] in *. inversion D as [|? ? D1 D2]; subst. constructor; [|now apply IH].
  intros J. apply in_map_iff in J as (v' & Ev & Iv). destruct (Forall2_in_r _ _ _ _ G Iv) as ([k' b'] & Ik & V').
  destruct (Y _ _ _ _ _ _ V V') as (name' & S' & Ne); [|rewrite S in S'; injection S' as <-; now apply Ne].
  intros ->. apply D1. change k' with (fst (k', b')). now apply in_map.
Qed.
Lemma inside_at m n : inside m n -> exists ks, at_names n ks m.
Proof. induction 1 as [n|m name ch src c I1 H (ks & A)]; [exists []; constructor|]. exists (n_name c :: ks). now econstructor; [exact I1|]. Qed.
Lemma sources_sorted h ps vars p nm meta e i i1 : site_of h ps vars p nm meta e i i1 -> loops_sorted h ps e -> pages_in (tokens_sorted i1) i1.
Proof.
  intros S L m toks Im Pm. destruct (site_facts _ _ _ _ _ _ _ _ _ S) as (Di & D1 & Ki & K1 & St). destruct S as (De & (l0 & ->) & C & P).
  destruct (inside_at _ _ Im) as [ks A]. destruct (at_spine _ _ _ A []) as [anc Sp]. assert (Fm : is_file m = true) by (destruct m; [reflexivity|discriminate Pm]).
  destruct (loaded_at _ _ _ _ _ _ _ _ Sp Fm _ _ _ _ C P) as (b & n0 & Ab & Cb & Q). assert (P0 : n_parsed n0 = PHtml toks).
  { destruct (create_file_kind _ _ _ _ _ _ Cb) as (pc & -> & _). cbn [preprocess] in Q. destruct pc as [t|m0|w|c| |]; try (injection Q as <-; exact Pm).
    destruct (preprocess_markdown _ _ _); cbn [map_err bind] in Q; try discriminate. injection Q as <-. discriminate Pm. }
  destruct (create_html _ _ _ _ _ _ _ Cb P0) as (X & t & U & Pt).
  assert (Ek : exists ks0, ks = ks0 ++ [last ks nm]). { destruct ks as [|k ks]; [inversion Ab|]. exists (removelast (k :: ks)). apply app_removelast_last. discriminate. }
  destruct Ek as [ks0 Ek]. rewrite Ek in Ab. intros [ti loc] f d ch src vs It Ti Ty G M. cbn [t_inner] in Ti. subst ti.
  apply (path_resolves _ _ _ D1) in G. destruct G as (hd & tl & kd & E1 & E2 & E3 & E4 & Ad). destruct (at_spine _ _ _ Ad []) as [anc' Spd].
  destruct (spine_stands _ _ _ _ _ _ Spd _ _ St) as (name' & x & Ax & Sx). inversion Sx as [? ? ? _ _ Fx|? l ? ? F]; subst; [discriminate Fx|].
  assert (Dl : NoDup (map fst l)). { clear - Ax De. remember (EDir l) as x eqn:Ex. induction Ax as [|? ? ? ? ? I1 Ax IH]; [subst; now inversion De|]. apply IH; [|exact Ex]. inversion De as [| |? _ D2]; subst. rewrite Forall_forall in D2. exact (D2 _ I1). }
  destruct (values_from _ _ _ _ _ F Dl _ M) as (kbs & Fk & Nk & _). apply (from_no_ties _ _ _ _ Fk Nk).
  apply (L ks0 (last ks nm) b t f kd l Ab X U); [|now exists hd, tl|exact Ax]. split; [exact Ty|]. exists (p ++ ks), toks, loc. split; [exact Pt|exact It].
Qed.

(** ** Two listings of the same directory *)
Lemma shuffled_refl e : shuffled e e.
Proof. induction e as [b| |l IH] using ent_ind2; [constructor|constructor|]. apply (sh_dir l l l); [|reflexivity]. clear - IH. induction IH; constructor; auto. Qed.
Lemma shuffled_at e e' ks x' : ent_at e' ks x' -> shuffled e e' -> exists x, ent_at e ks x /\ shuffled x x'.
Proof.
  intros A. revert e. induction A as [e'|l2 k c ks x' I1 A IH]; intros e Sh; [exists e; split; [constructor|exact Sh]|].
  inversion Sh as [| |l l1 ? F P]; subst. apply Permutation_sym in P. apply (Permutation_in _ P) in I1. destruct (Forall2_in_r _ _ _ _ F I1) as ([k0 c0] & I0 & Ek & Sc). cbn [fst snd] in *. subst k0.
  destruct (IH _ Sc) as (x & Ax & Sx). exists x. split; [|exact Sx]. econstructor; eassumption.
Qed.
Lemma perm_forall2 {A B} (R : A -> B -> Prop) l1 l1' l2 : Permutation l1 l2 -> Forall2 R l1 l1' -> exists l2', Permutation l1' l2' /\ Forall2 R l2 l2'.
Proof.
  intros P. revert l1'. induction P as [|x l l' P IH|x y l|l l' l'' P1 IH1 P2 IH2]; intros l1' F.
  - inversion F; subst. exists []. split; constructor.
  - inversion F as [|? y ? r H F']; subst. destruct (IH _ F') as (r' & P' & G). exists (y :: r'). split; now constructor.
  - inversion F as [|? a ? r H F']; subst. inversion F' as [|? b ? r' H' F'']; subst. exists (b :: a :: r'). split; [constructor|]. now repeat constructor.
  - destruct (IH1 _ F) as (r1 & Q1 & F1). destruct (IH2 _ F1) as (r2 & Q2 & F2). exists r2. split; [now transitivity r1|exact F2].
Qed.
Lemma shuffled_sym e : forall e', shuffled e e' -> shuffled e' e.
Proof.
  induction e as [b| |l IH] using ent_ind2; intros e' Sh; inversion Sh as [| |? l1 l2 F P]; subst; [constructor|constructor|].
  assert (G : Forall2 (fun x y => fst y = fst x /\ shuffled (snd x) (snd y)) l1 l).
  { clear - F IH. revert IH. induction F as [|[k x] [k' y] l l1 [E S] F IHF]; intros IH; [constructor|]. inversion IH as [|? ? I1 I2]; subst. cbn [fst snd] in *. constructor; [split; [now symmetry|now apply I1]|now apply IHF]. }
  destruct (perm_forall2 _ _ _ _ P G) as (l3 & P3 & G3). apply (sh_dir l2 l3 l); [exact G3|now apply Permutation_sym].
Qed.
Lemma shuffled_distinct e : forall e', shuffled e e' -> ent_distinct e -> ent_distinct e'.
Proof.
  induction e as [b| |l IH] using ent_ind2; intros e' Sh D; inversion Sh as [| |? l1 l2 F P]; subst; [constructor|constructor|]. inversion D as [| |? D1 D2]; subst. constructor.
  - eapply Permutation_NoDup; [apply Permutation_map; exact P|]. replace (map fst l1) with (map fst l); [exact D1|]. clear - F. induction F as [|x y l l1 [E _] F IHF]; cbn [map]; congruence.
  - rewrite Forall_forall in *. intros [k c] I1. apply Permutation_sym in P. apply (Permutation_in _ P) in I1. destruct (Forall2_in_r _ _ _ _ F I1) as ([k0 c0] & I0 & Ek & Sc). cbn [fst snd] in *.
    exact (IH _ I0 _ Sc (D2 _ I0)).
Qed.
Lemma shuffled_sorted h ps e e' : shuffled e e' -> loops_sorted h ps e -> loops_sorted h ps e'.
Proof.
  intros Sh L ks name b t f kd l A X U Lp Po Ad k1 b1 k2 b2 I1 I2 X1 X2 Ne. destruct (shuffled_at _ _ _ _ A Sh) as (x & Ax & Sx). inversion Sx; subst.
  destruct (shuffled_at _ _ _ _ Ad Sh) as (y & Ay & Sy). inversion Sy as [| |l0 l1 ? F P]; subst. apply Permutation_sym in P.
  assert (Y : forall k c, In (k, EFile c) l -> In (k, EFile c) l0).
  { intros k c J. apply (Permutation_in _ P) in J. destruct (Forall2_in_r _ _ _ _ F J) as ([k0 c0] & I0 & Ek & Sc). cbn [fst snd] in *. subst k0. inversion Sc; subst. exact I0. }
  exact (L ks name b t f kd l0 Ax X U Lp Po Ay k1 b1 k2 b2 (Y _ _ I1) (Y _ _ I2) X1 X2 Ne).
Qed.
Lemma order_build h osenv mode d d' st e e' : sd_ent d = Some e -> sd_ent d' = Some e' -> sd_path d' = sd_path d -> sd_name d' = sd_name d ->
  ent_distinct e -> shuffled e e' -> loops_sorted h (st_plugins st) e -> forall out,
  snd (build h osenv mode d st) = Ok tt -> st_output (fst (build h osenv mode d st)) = Some out ->
  snd (build h osenv mode d' st) = Ok tt /\ exists out', st_output (fst (build h osenv mode d' st)) = Some out' /\ reordered out out'.
Proof.
  intros E E' Pa Na De Sh L out B O. destruct (build_run _ _ _ _ _ _ _ B O E) as (l & i & rn & ch & src & ch1 & -> & C & P & M & ->). set (vars := build_vars osenv mode) in *.
  assert (S : site_of h (st_plugins st) vars (sd_path d) (sd_name d) (cf_meta (st_config st)) (EDir l) i (NDir rn ch src)) by (repeat split; try assumption; now exists l).
  destruct (site_facts _ _ _ _ _ _ _ _ _ S) as (Di & D1 & Ki & K1 & St). pose proof (sources_sorted _ _ _ _ _ _ _ _ _ S L) as Pg.
  destruct (shuffled_create _ _ _ _ _ _ _ Sh C) as (i' & C' & Ri).
  assert (V0 : pr_views (fun _ => True) (build_pr h (cf_meta (st_config st)) vars i) (build_pr h (cf_meta (st_config st)) vars i')).
  { destruct (reordered_pr h (cf_meta (st_config st)) vars _ _ Ri Di) as (A1 & A2 & n & n' & N & N' & V). split; [exact A1|]. split; [exact A2|]. exists n, n'. split; [exact N|]. split; [exact N'|].
    intros toks _. apply V. apply fresh_sorted. exact (created_fresh _ _ _ _ _ _ C). }
  destruct (reordered_preprocess _ _ _ V0 _ _ Ri P) as (i1' & P' & R1). assert (R1' := R1). inversion R1' as [|? ? cha chb ? F Pm]; subst.
  pose proof (reordered_pr h (cf_meta (st_config st)) vars _ _ R1 D1) as V1. inversion D1 as [|? ? ? Dn _]; subst.
  assert (En : env_in (tokens_sorted (NDir rn ch src)) (env_update (Env vars None None) ch)).
  { apply env_in_update; [split; intros t T; discriminate T|]. intros c t Ic. apply Pg. econstructor; [exact Ic|constructor]. }
  assert (Bn : build_node (build_pr h (cf_meta (st_config st)) vars (NDir rn ch src)) (env_update (Env vars None None) ch) (NDir rn ch src) = Ok (NDir rn ch1 src)).
  { cbn [build_node]. rewrite M. reflexivity. }
  destruct (reordered_build _ _ _ _ V1 eq_refl _ _ _ R1 D1 Pg En Bn) as (out' & B' & R').
  assert (X : build h osenv mode d' st = (Stuart (Some (NDir rn chb src)) (Some out') (st_config st) (Some (base_frame vars)) (st_plugins st), Ok tt)).
  { inversion Sh as [| |? l1 l2 Fl Pl]; subst. unfold build. rewrite E'. unfold node_new. rewrite Pa, Na, C'. fold vars. fold (build_pr h (cf_meta (st_config st)) vars i'). rewrite P'.
    unfold build_tree. fold (build_pr h (cf_meta (st_config st)) vars i'). rewrite P'. cbn [bind n_children]. rewrite (env_reordered _ _ _ _ F Pm Dn).
    fold (build_pr h (cf_meta (st_config st)) vars (NDir rn chb src)). rewrite B'. reflexivity. }
  rewrite X. split; [reflexivity|]. exists out'. split; [reflexivity|exact R'].
Qed.
Lemma build_has_output h osenv mode d st : snd (build h osenv mode d st) = Ok tt -> exists out, st_output (fst (build h osenv mode d st)) = Some out.
Proof.
  unfold build. destruct (node_new _ _ _ _ _ _) as [i| | |]; try discriminate. destruct (preprocess _ _) as [i'| | |]; try discriminate. destruct (build_tree _ _ _ _) as [[x out]| | |]; try discriminate. now exists out.
Qed.
Lemma order_matters_not h osenv mode d d' st e e' : sd_ent d = Some e -> sd_ent d' = Some e' -> sd_path d' = sd_path d -> sd_name d' = sd_name d ->
  ent_distinct e -> shuffled e e' -> loops_sorted h (st_plugins st) e ->
  (snd (build h osenv mode d st) = Ok tt <-> snd (build h osenv mode d' st) = Ok tt) /\
  forall out, snd (build h osenv mode d st) = Ok tt -> st_output (fst (build h osenv mode d st)) = Some out ->
    exists out', st_output (fst (build h osenv mode d' st)) = Some out' /\ reordered out out'.
Proof.
  intros E E' Pa Na De Sh L. split.
  - split; intros B.
    + destruct (build_has_output _ _ _ _ _ B) as [out O]. exact (proj1 (order_build _ _ _ _ _ _ _ _ E E' Pa Na De Sh L _ B O)).
    + destruct (build_has_output _ _ _ _ _ B) as [out O].
      exact (proj1 (order_build _ _ _ _ _ _ _ _ E' E (eq_sym Pa) (eq_sym Na) (shuffled_distinct _ _ Sh De) (shuffled_sym _ _ Sh) (shuffled_sorted _ _ _ _ Sh L) _ B O)).
  - intros out B O. exact (proj2 (order_build _ _ _ _ _ _ _ _ E E' Pa Na De Sh L _ B O)).
Qed.

(** ** Saving *)
Lemma saves_perm cf dir ch ch' l : Permutation ch ch' -> saves_all cf dir ch l -> exists l', saves_all cf dir ch' l' /\ Permutation l l'.
Proof.
  intros P. revert l. induction P as [|x c c' P IH|x y c|c c' c'' P1 IH1 P2 IH2]; intros l S.
  - exists l. split; [exact S|reflexivity].
  - inversion S as [|? ? ? l1 l2 S1 S2]; subst. destruct (IH _ S2) as (l' & S' & Pl). exists (l1 ++ l'). split; [now constructor|now apply Permutation_app_head].
  - inversion S as [|? ? ? l1 l2 S1 S2]; subst. inversion S2 as [|? ? ? l3 l4 S3 S4]; subst. exists (l3 ++ l1 ++ l4). split; [constructor; [exact S3|now constructor]|].
    rewrite !app_assoc. apply Permutation_app_tail, Permutation_app_comm.
  - destruct (IH1 _ S) as (l1 & S1 & Q1). destruct (IH2 _ S1) as (l2 & S2 & Q2). exists l2. split; [exact S2|now transitivity l1].
Qed.
Lemma saves_reordered cf n : forall n' dir l, reordered n n' -> saves cf dir n l -> exists l', saves cf dir n' l' /\ Permutation l l'.
Proof.
  induction n as [name b p meta src|name ch src IH] using node_ind2; intros n' dir l R S; inversion R as [|? ? ch1 ch2 ? F P]; subst; [exists l; split; [exact S|reflexivity]|].
  inversion S as [| | | |? ? ? ? l0 Pn S0]; subst.
  assert (X : exists l1, saves_all cf (dir ++ [name]) ch1 l1 /\ Permutation l0 l1).
  { clear R S P. revert l0 S0 IH. induction F as [|x y ch ch1 Rx F IHF]; intros l0 S0 IH; [exists l0; split; [exact S0|reflexivity]|].
    inversion S0 as [|? ? ? l1 l2 S1 S2]; subst. inversion IH as [|? ? I1 I2]; subst. destruct (I1 _ _ _ Rx S1) as (m1 & T1 & Q1). destruct (IHF _ S2 I2) as (m2 & T2 & Q2).
    exists (m1 ++ m2). split; [now constructor|now apply Permutation_app]. }
  destruct X as (l1 & S1 & Q1). destruct (saves_perm _ _ _ _ _ P S1) as (l2 & S2 & Q2). exists ((dir ++ [name], None) :: l2). split; [now constructor|]. constructor. now transitivity l1.
Qed.
Lemma saves_all_reordered cf dir ch ch1 ch2 l : Forall2 reordered ch ch1 -> Permutation ch1 ch2 -> saves_all cf dir ch l -> exists l', saves_all cf dir ch2 l' /\ Permutation l l'.
Proof.
  intros F P S. assert (X : exists l1, saves_all cf dir ch1 l1 /\ Permutation l l1).
  { clear P. revert l S. induction F as [|x y ch ch1 Rx F IHF]; intros l0 S0; [exists l0; split; [exact S0|reflexivity]|].
    inversion S0 as [|? ? ? l1 l2 S1 S2]; subst. destruct (saves_reordered _ _ _ _ _ Rx S1) as (m1 & T1 & Q1). destruct (IHF _ S2) as (m2 & T2 & Q2).
    exists (m1 ++ m2). split; [now constructor|now apply Permutation_app]. }
  destruct X as (l1 & S1 & Q1). destruct (saves_perm _ _ _ _ _ P S1) as (l2 & S2 & Q2). exists l2. split; [exact S2|]. now transitivity l1.
Qed.
Lemma last_only l l' q b : no_overwrite l -> Permutation l l' -> (last_file l' q b <-> In (q, Some b) l).
Proof.
  intros N P. assert (U : forall b1 b2, In (q, Some b1) l -> In (q, Some b2) l -> b1 = b2).
  { intros b1 b2 I1 I2. apply in_split in I1 as (l1 & l2 & ->). apply in_app_or in I2 as [I2|[I2|I2]].
    - destruct (N l1 q b1 l2 b2 eq_refl). apply in_or_app. now left.
    - now injection I2.
    - destruct (N l1 q b1 l2 b2 eq_refl). apply in_or_app. now right. }
  split; intros H.
  - apply SaveFacts.last_in in H. apply Permutation_sym in P. now apply (Permutation_in _ P).
  - assert (H' := Permutation_in _ P H). apply SaveFacts.last_exists in H' as [b' L]. assert (J := SaveFacts.last_in _ _ _ L). apply (Permutation_in _ (Permutation_sym P)) in J.
    now rewrite (U _ _ H J).
Qed.
Lemma saved_alike f f' st st' p d1 d1' d2 d2' out out' ch l : st_output st = Some out -> st_output st' = Some out' -> st_config st' = st_config st -> reordered out out' ->
  n_children out = Some ch -> saves_all (st_config st) [] ch l -> no_overwrite l -> ent_distinct d1 -> ent_distinct d2 ->
  save f st p d1 = (d1', Ok tt) -> save f' st' p d2 = (d2', Ok tt) -> forall q, what (p ++ q) d2' = what (p ++ q) d1'.
Proof.
  intros O O' Cf R Nc Sv No D1 D2 S1 S2 q. inversion R as [|nm c c1 c2 src F P]; subst; [discriminate|]. injection Nc as ->.
  destruct (saves_all_reordered _ _ _ _ _ _ F P Sv) as (l' & Sv' & Pl). rewrite <- Cf in Sv'.
  pose proof (SaveFacts.save_exactly _ _ _ _ _ _ _ _ O eq_refl Sv D1 S1 q) as (A1 & A2 & A3). pose proof (SaveFacts.save_exactly _ _ _ _ _ _ _ _ O' eq_refl Sv' D2 S2 q) as (B1 & B2 & B3).
  assert (FF : forall b, what (p ++ q) d2' = KFile b <-> what (p ++ q) d1' = KFile b).
  { intros b. rewrite A1, B1, (last_only l l' q b No Pl), (last_only l l q b No (Permutation_refl _)). reflexivity. }
  assert (DD : what (p ++ q) d2' = KDir <-> what (p ++ q) d1' = KDir).
  { rewrite A2, B2. assert (Q : forall x, In x l <-> In x l') by (intros x; split; apply Permutation_in; [exact Pl|now apply Permutation_sym]). rewrite <- Q.
    split; (intros [H|[H1 H2]]; [now left|right; split; [exact H1|]; intros b J; apply (H2 b)]); now apply Q. }
  destruct (what (p ++ q) d2') as [|b| |] eqn:W.
  - destruct (what (p ++ q) d1') as [|b| |] eqn:W1; auto; [pose proof (proj2 (FF b) eq_refl) as X; discriminate X|pose proof (proj2 DD eq_refl) as X; discriminate X|now destruct A3].
  - symmetry. now apply FF.
  - symmetry. now apply DD.
  - now destruct B3.
Qed.

(** ** Computing front matter *)
Lemma parts_front ext plugins file t m fm body : parse_markdown ext plugins file t = Ok m -> md_parts t fm body -> md_front m = fm.
Proof.
  intros H [(NO & -> & ls & TL & ->)|(O & fs & d & ls & TL & F2 & ND & DD & ->)].
  - rewrite (markdown_none _ _ _ _ _ NO TL) in H. now apply md_result_ok in H as (toks & _ & ->).
  - rewrite (markdown_front _ _ _ _ _ fs fm d ls O TL eq_refl F2 ND DD) in H. now apply md_result_ok in H as (toks & _ & ->).
Qed.
Lemma front_key_value ext plugins file b t m key v : from_utf8 b = Some t -> parse_markdown ext plugins file t = Ok m -> front_key key b v ->
  v = match assoc key (md_front m) with Some s => s | None => [] end.
Proof.
  intros U Q (t' & fm & body & U' & MP & H). apply decoding in U'. rewrite U in U'. injection U' as <-. rewrite (parts_front _ _ _ _ _ _ _ Q MP).
  destruct H as [H|[-> H]]; [apply assoc_iff in H; now rewrite H|]. destruct (assoc key fm) as [s|] eqn:A; [|reflexivity]. apply assoc_iff in A. destruct H.
  destruct A as (l1 & l2 & -> & _). rewrite map_app. apply in_or_app. right. now left.
Qed.

(** ** Listing a directory, for the examples *)
Fixpoint all_files (name : text) (e : ent) : list (text * bytes) :=
  match e with EFile b => [(name, b)] | EDir l => flat_map (fun ke => all_files (fst ke) (snd ke)) l | EOther => [] end.
Fixpoint all_dirs (e : ent) : list (list (text * ent)) :=
  match e with EDir l => l :: flat_map (fun ke => all_dirs (snd ke)) l | _ => [] end.
Lemma files_at e ks x : ent_at e ks x -> forall nm b, x = EFile b -> In (last ks nm, b) (all_files nm e).
Proof.
  induction 1 as [e|l k c ks x I1 A IH]; intros nm b ->; [now left|]. cbn [all_files]. rewrite last_cons. apply in_flat_map. exists (k, c). split; [exact I1|]. now apply IH.
Qed.
Lemma dirs_at e ks x : ent_at e ks x -> forall l, x = EDir l -> In l (all_dirs e).
Proof.
  induction 1 as [e|l k c ks x I1 A IH]; intros l' ->; [now left|]. cbn [all_dirs]. right. apply in_flat_map. exists (k, c). split; [exact I1|]. now apply IH.
Qed.
Lemma sorted_if h ps e : (forall name b t p toks f l loc, In (name, b) (all_files [] e) -> extension name = Some (lit "html") -> from_utf8 b = Some t ->
  parse_html (h_ext h) (map (fun pl => (pl_name pl, pl_fns pl)) ps) p t = Ok toks -> In (LTok (TFun (FFor f)) loc) toks -> In l (all_dirs e) ->
  forall k1 b1 k2 b2, In (k1, EFile b1) l -> In (k2, EFile b2) l -> extension k1 = Some (lit "md") -> extension k2 = Some (lit "md") -> k1 <> k2 -> told_apart f b1 b2) -> loops_sorted h ps e.
Proof.
  intros H ks name b t f kd l A X U (Ty & p & toks & loc & Pt & It) Po Ad k1 b1 k2 b2 I1 I2 X1 X2 Ne. apply extension_spec in X, X1, X2. apply decoding in U.
  apply (H name b t p toks f l loc) with (k1 := k1) (k2 := k2); auto; [|now apply (dirs_at _ _ _ Ad)]. pose proof (files_at _ _ _ A [] b eq_refl) as J. now rewrite last_last in J.
Qed.
