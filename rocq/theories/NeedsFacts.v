(** NeedsFacts.v -- a page depends only on the files it asks for (C88). *)

From Coq Require Import String List NArith ZArith Bool Lia.
From Verif Require Import Text TextFacts Utf8 Json Base Syntax Parse Tree Interp Build SpecTemplate SpecScope SpecPage SpecTree SpecSite SpecBlame SpecLocal SpecNeeds.
From Verif Require Import ScopeFacts TreeFacts PathFacts GrammarFacts SiteFacts ViewFacts LocalFacts BlameFacts.
Import ListNotations.

(** ** Paths *)
Lemma components_path s qs : components s = Some qs -> path_of s qs.
Proof.
  unfold components. destruct (starts_with [c_slash] s) eqn:S; [discriminate|].
  pose proof (split_char_slashed s) as E. pose proof (split_char_spec c_slash s) as F. destruct (split_char c_slash s) as [h r].
  destruct (existsb _ _) eqn:X; [discriminate|]. intros W; injection W as <-. exists h, r. split; [exact E|].
  destruct F as [F1 F2]. split; [now constructor|]. split; [|now apply path_names_iff].
  intros ->. destruct r as [|k r]; [reflexivity|]. subst s. discriminate.
Qed.
Lemma create_walk h ps qs : forall e p nm n m, create_from h ps true p nm e = Ok n -> walk n qs = Some m ->
  exists x, ent_at e qs x /\ create_from h ps true (p ++ qs) (last qs nm) x = Ok m.
Proof.
  induction qs as [|k qs IH]; intros e p nm n m C W; cbn [walk] in W.
  - injection W as <-. exists e. rewrite app_nil_r. split; [constructor|exact C].
  - destruct e as [b|l|]; cbn [create_from] in C; [| |discriminate].
    + destruct (create_file_kind _ _ _ _ _ _ C) as (pc & -> & _). discriminate W.
    + destruct (map_res _ l) as [ch| | |] eqn:M; cbn [bind] in C; try discriminate. injection C as <-. cbn [n_children] in W.
      destruct (find_child k ch) as [c|] eqn:F; [|discriminate]. apply find_child_some in F. destruct F as [Ic Nc]. apply map_res_ok in M.
      destruct (Forall2_in_r _ _ _ _ M Ic) as ((k' & x) & Ix & Cx). cbn [fst snd] in Cx.
      assert (k' = k) as -> by (rewrite <- Nc; symmetry; exact (stands_name _ _ _ _ (create_stands _ _ _ _ _ _ Cx))).
      destruct (IH _ _ _ _ _ Cx W) as (y & A & B). exists y. rewrite <- app_assoc in B. split; [econstructor; eassumption|]. rewrite last_cons. exact B.
Qed.
Lemma walk_create h ps e qs x : ent_at e qs x -> ent_distinct e -> forall p nm n, create_from h ps true p nm e = Ok n ->
  exists m, walk n qs = Some m /\ create_from h ps true (p ++ qs) (last qs nm) x = Ok m.
Proof.
  induction 1 as [e|l k e qs x I A IH]; intros D p nm n C.
  - exists n. rewrite app_nil_r. split; [reflexivity|exact C].
  - inversion D as [| |? D1 D2]; subst. cbn [create_from] in C. destruct (map_res _ l) as [ch| | |] eqn:M; cbn [bind] in C; try discriminate. injection C as <-.
    apply map_res_ok in M. destruct (Forall2_in_l _ _ _ _ M I) as (c & Ic & Cc). cbn [fst snd] in Cc.
    assert (Nc : n_name c = k) by exact (stands_name _ _ _ _ (create_stands _ _ _ _ _ _ Cc)).
    assert (ND : NoDup (map n_name ch)).
    { assert (E : map n_name ch = map fst l); [|now rewrite E]. clear - M. induction M as [|[k e] c l ch Cc M IHM]; [reflexivity|]. cbn [map fst snd] in *. rewrite IHM. f_equal. exact (stands_name _ _ _ _ (create_stands _ _ _ _ _ _ Cc)). }
    rewrite Forall_forall in D2. destruct (IH (D2 _ I) _ _ _ Cc) as (m & W & B). exists m. rewrite <- app_assoc in B. split; [|rewrite last_cons; exact B].
    cbn [walk n_children]. rewrite <- Nc at 1. now rewrite (find_child_in _ _ ND Ic).
Qed.
Lemma find_preprocess pr k ch : forall ch1, Forall2 (fun c c1 => preprocess pr c = Ok c1) ch ch1 ->
  match find_child k ch, find_child k ch1 with Some c, Some c1 => preprocess pr c = Ok c1 | None, None => True | _, _ => False end.
Proof.
  unfold find_child. induction 1 as [|c c1 ch ch1 P F IH]; [exact I|]. cbn [find]. destruct (preprocess_source _ _ _ P) as [_ ->]. now destruct (text_eqb _ _).
Qed.
Lemma walk_preprocess pr qs : forall n n1, preprocess pr n = Ok n1 ->
  match walk n qs, walk n1 qs with Some m, Some m1 => preprocess pr m = Ok m1 | None, None => True | _, _ => False end.
Proof.
  induction qs as [|k qs IH]; intros n n1 P; cbn [walk]; [exact P|]. destruct n as [name b pc meta src|name ch src].
  - destruct (file_preprocess pr (NFile name b pc meta src) _ eq_refl P) as [_ F]. destruct n1; [exact I|discriminate].
  - cbn [preprocess] in P. destruct (map_res (preprocess pr) ch) as [ch1| | |] eqn:M; cbn [bind] in P; try discriminate. injection P as <-. apply map_res_ok in M. cbn [n_children].
    pose proof (find_preprocess pr k _ _ M) as F. destruct (find_child k ch), (find_child k ch1); try contradiction; [now apply IH|exact I].
Qed.

(** ** Markdown files of a directory *)
Definition is_md (n : node) : bool := match n_parsed n with PMarkdown _ => true | _ => false end.
Lemma values_md {E} ch : @md_values E (filter is_md ch) = md_values ch.
Proof.
  induction ch as [|c ch IH]; [reflexivity|]. cbn [filter]. unfold is_md at 1. cbn [md_values]. destruct (n_parsed c) eqn:P; try exact IH.
  cbn [md_values]. rewrite P, IH. reflexivity.
Qed.
Lemma posts_total l : exists ms, posts l ms.
Proof.
  induction l as [|[k e] l [ms IH]]; [exists []; constructor|]. destruct (extension k) as [x|] eqn:X.
  - apply extension_spec in X. destruct (text_eqb x (lit "md")) eqn:E.
    + apply text_eqb_eq in E. subst x. destruct e as [b| |]; [exists ((k, b) :: ms); now constructor|exists ms; apply po_skip; [right; discriminate|exact IH]..].
    + apply text_eqb_neq in E. exists ms. apply po_skip; [left|exact IH]. intros Y. apply E. eapply has_ext_unique; eassumption.
  - exists ms. apply po_skip; [left|exact IH]. intros Y. apply extension_spec in Y. congruence.
Qed.
Lemma posts_unique l ms : posts l ms -> forall ms', posts l ms' -> ms = ms'.
Proof.
  induction 1 as [|k b l r X P IH|k e l r X P IH]; intros ms' P'; inversion P' as [|? ? ? ? X' P1|? ? ? ? X' P1]; subst; try reflexivity.
  - f_equal. now apply IH.
  - destruct X' as [X'|X']; [contradiction|now destruct (X' b)].
  - destruct X as [X|X]; [contradiction|now destruct (X b)].
  - now apply IH.
Qed.
Lemma posts_in l ms : posts l ms -> forall k b, In (k, b) ms -> In (k, EFile b) l /\ has_ext k (lit "md").
Proof.
  induction 1 as [|k0 b0 l r X P IH|k0 e l r X P IH]; intros k b I.
  - destruct I.
  - destruct I as [I|I]; [injection I as -> ->; split; [now left|exact X]|]. destruct (IH _ _ I). split; [now right|assumption].
  - destruct (IH _ _ I). split; [now right|assumption].
Qed.
Lemma posts_loaded h ps p l ms : posts l ms -> forall ch, Forall2 (fun ne n => create_from h ps true (p ++ [fst ne]) (fst ne) (snd ne) = Ok n) l ch ->
  Forall2 (fun kb n => create_from_file h ps true (p ++ [fst kb]) (fst kb) (snd kb) = Ok n) ms (filter is_md ch).
Proof.
  induction 1 as [|k b l r X P IH|k e l r X P IH]; intros ch F; inversion F as [|? c ? ch' C F']; subst; cbn [filter fst snd] in *.
  - constructor.
  - cbn [create_from] in C. destruct (create_file_kind _ _ _ _ _ _ C) as (pc & -> & K). unfold is_md. cbn [n_parsed].
    assert (exists m, pc = PMarkdown m) as [m ->].
    { destruct K as [(Y & t & ->)|[(Y & m & -> & _)|[(Y & v & ->)|[(ext & np & c & Y & N1 & N2 & N3 & _ & _ & ->)|(-> & N)]]]].
      - pose proof (has_ext_unique _ _ _ X Y) as Z; discriminate Z.
      - now exists m.
      - pose proof (has_ext_unique _ _ _ X Y) as Z; discriminate Z.
      - pose proof (has_ext_unique _ _ _ X Y) as Z. now subst ext.
      - apply N in X. tauto. }
    constructor; [exact C|now apply IH].
  - replace (is_md c) with false; [now apply IH|]. symmetry. destruct e as [b|l0|]; cbn [create_from] in C; [| |discriminate].
    + destruct X as [X|X]; [|now destruct (X b)]. destruct (create_file_kind _ _ _ _ _ _ C) as (pc & -> & K). unfold is_md. cbn [n_parsed].
      destruct K as [(Y & t & ->)|[(Y & m & -> & _)|[(Y & v & ->)|[(ext & np & c & Y & N1 & N2 & N3 & _ & _ & ->)|(-> & N)]]]]; try reflexivity. contradiction.
    + destruct (map_res _ l0); cbn [bind] in C; try discriminate. now injection C as <-.
Qed.
Lemma md_preprocess pr ch ch1 : Forall2 (fun c c1 => preprocess pr c = Ok c1) ch ch1 -> Forall2 (fun c c1 => preprocess pr c = Ok c1) (filter is_md ch) (filter is_md ch1).
Proof.
  induction 1 as [|c c1 ch ch1 P F IH]; [constructor|]. cbn [filter].
  assert (E : is_md c1 = is_md c).
  { destruct c as [name b pc meta src|name l src]; cbn [preprocess] in P.
    - destruct pc; try (injection P as <-; reflexivity). destruct (preprocess_markdown _ _ _); cbn [map_err bind] in P; try discriminate. now injection P as <-.
    - destruct (map_res _ l); cbn [bind] in P; try discriminate. now injection P as <-. }
  rewrite E. destruct (is_md c); [constructor; assumption|exact IH].
Qed.
Lemma forall2_fun {A B} (R R' : A -> B -> Prop) l r : Forall2 R l r -> (forall a b b', In a l -> R a b -> R' a b' -> b = b') -> forall r', Forall2 R' l r' -> r = r'.
Proof.
  induction 1 as [|a b l r H F IH]; intros U r' F'; inversion F' as [|? b' ? r0 H' F0]; subst; [reflexivity|]. f_equal.
  - apply (U a); [now left|exact H|exact H'].
  - apply IH; [|exact F0]. intros a0 b0 b0' I. apply U. now right.
Qed.
Lemma json_preprocess pr nm b pc v meta src m : preprocess pr m = Ok (NFile nm b pc meta src) -> pc = PJson v -> m = NFile nm b pc meta src.
Proof.
  destruct m as [name b0 pc0 meta0 src0|name l src0]; cbn [preprocess].
  - destruct pc0; try (intros E; injection E as <- <- <- <- <-; intros; congruence). destruct (preprocess_markdown _ _ _); cbn [map_err bind]; try discriminate. intros E; injection E as <- <- <- <- <-. discriminate.
  - destruct (map_res _ l); cbn [bind]; discriminate.
Qed.

(** ** Trees that answer alike for the files in [N] *)
Definition asking (N : text -> Prop) (toks : list ltoken) : Prop := forall t s, In t toks -> asks (t_inner t) s -> N s.
Lemma file_asks h ps e p ks name b n0 (N : text -> Prop) : ent_at e (ks ++ [name]) (EFile b) -> create_from_file h ps true (p ++ ks ++ [name]) name b = Ok n0 ->
  (forall s, asks_for h ps e (ks ++ [name]) s -> N s) ->
  (forall t, n_parsed n0 = PHtml t -> asking N t) /\ (forall m, n_parsed n0 = PMarkdown m -> asking N (md_tokens m)).
Proof.
  intros A C Q. pose proof (file_tokens h ps p e name b (ks ++ [name]) ks n0 eq_refl A C) as T. split; intros x E; rewrite E in T.
  - destruct T as (_ & body & T & P). intros t s I K. apply Q. exists body, (map t_inner x), (t_inner t). split; [exact T|]. split; [apply (parse_means _ _ (p ++ ks ++ [name])); eauto|]. split; [now apply in_map|exact K].
  - destruct T as (_ & body & T & P). intros t s I K. apply Q. exists body, (map t_inner (md_tokens x)), (t_inner t). split; [exact T|]. split; [apply (parse_means _ _ (p ++ ks ++ [name])); eauto|]. split; [now apply in_map|exact K].
Qed.
Section Raw.
  Variables (h : host) (ps : list plugin) (vars : list (text * text)) (p : path) (nm : text).
  Variable N : text -> Prop.
  Variables (meta meta' : bool) (e e' : ent) (i i' : node).
  Hypothesis C : create_from h ps true p nm e = Ok i.
  Hypothesis C' : create_from h ps true p nm e' = Ok i'.
  Hypothesis De' : ent_distinct e'.
  Hypothesis Same : forall s qs, N s -> path_of s qs -> same_there e e' qs.
  Lemma loaded_view : pr_views (asking N) (build_pr h meta vars i) (build_pr h meta' vars i').
  Proof.
    assert (J : forall s qs m v b pc mt sr k, N s -> path_of s qs -> walk i qs = Some m -> m = NFile k b pc mt sr -> pc = PJson v -> walk i' qs = Some m).
    { intros s qs m v b pc mt sr k Ns Pq W Em Ep. destruct (create_walk _ _ _ _ _ _ _ _ C W) as (x & A & B). destruct x as [bb|l|]; cbn [create_from] in B; [| |discriminate].
      - apply (proj1 (Same _ _ Ns Pq)) in A. destruct (walk_create _ _ _ _ _ A De' _ _ _ C') as (m' & W' & B'). cbn [create_from] in B'. rewrite B in B'. injection B' as <-. exact W'.
      - destruct (map_res _ l); cbn [bind] in B; try discriminate. injection B as <-. discriminate. }
    split; [reflexivity|]. split; [reflexivity|]. exists i, i'. split; [reflexivity|]. split; [reflexivity|]. intros toks Ask. split; [reflexivity|reflexivity| |]; cbn [w_toks]; intros t.
    - intros f st vs I T E. unfold for_values in *. cbn [w_input] in *. destruct (ff_type f) eqn:Ft; [| |now exists vs].
      + assert (Ns : N (ff_src f)) by (apply (Ask t); [exact I|]; rewrite T; constructor; congruence).
        unfold get_at_path in *. destruct (components (ff_src f)) as [qs|] eqn:Cs; [|discriminate]. apply components_path in Cs.
        destruct (walk i qs) as [[|k ch sr]|] eqn:W; try discriminate.
        destruct (create_walk _ _ _ _ _ _ _ _ C W) as (x & A & B). destruct x as [bb|l|]; cbn [create_from] in B; [| |discriminate].
        { destruct (create_file_kind _ _ _ _ _ _ B) as (pc & X & _). discriminate. }
        destruct (map_res _ l) as [ch0| | |] eqn:M; cbn [bind] in B; try discriminate. injection B as <- -> <-. apply map_res_ok in M.
        destruct (posts_total l) as [ms Pm]. destruct (proj1 (proj2 (Same _ _ Ns Cs) ms)) as (l' & A' & Pm'); [now exists l|].
        destruct (walk_create _ _ _ _ _ A' De' _ _ _ C') as (m' & W' & B'). rewrite W'. cbn [create_from] in B'. destruct (map_res _ l') as [ch'| | |] eqn:M'; cbn [bind] in B'; try discriminate. injection B' as <-. apply map_res_ok in M'.
        exists vs. split; [|reflexivity]. rewrite <- E. rewrite <- (values_md ch), <- (values_md ch'). f_equal. symmetry.
        eapply forall2_fun; [exact (posts_loaded h ps _ _ _ Pm _ M)| |exact (posts_loaded h ps _ _ _ Pm' _ M')]. cbn beta. intros; congruence.
      + assert (Ns : N (ff_src f)) by (apply (Ask t); [exact I|]; rewrite T; constructor; congruence).
        unfold get_at_path in *. destruct (components (ff_src f)) as [qs|] eqn:Cs; [|discriminate]. apply components_path in Cs.
        destruct (walk i qs) as [[k b [] mt sr|k ch sr]|] eqn:W; try discriminate. rewrite (J _ _ _ _ _ _ _ _ _ Ns Cs W eq_refl eq_refl). now exists vs.
    - intros v file s s' I T E. unfold exec_import in *. cbn [w_input] in *. assert (Ns : N file) by (apply (Ask t); [exact I|]; rewrite T; constructor).
      unfold get_at_path in *. destruct (components file) as [qs|] eqn:Cs; [|discriminate]. apply components_path in Cs.
      destruct (walk i qs) as [[k b [] mt sr|k ch sr]|] eqn:W; try discriminate. now rewrite (J _ _ _ _ _ _ _ _ _ Ns Cs W eq_refl eq_refl).
  Qed.
End Raw.
Section Two.
  Variables (h : host) (ps : list plugin) (vars : list (text * text)) (p : path) (nm : text).
  Variable N : text -> Prop.
  Variables (meta meta' : bool) (e e' : ent) (i i' i1 i1' : node).
  Hypothesis S : site_of h ps vars p nm meta e i i1.
  Hypothesis S' : site_of h ps vars p nm meta' e' i' i1'.
  Hypothesis Same : forall s qs, N s -> path_of s qs -> same_there e e' qs.
  Lemma raw_view : pr_views (asking N) (build_pr h meta vars i) (build_pr h meta' vars i').
  Proof.
    destruct S as (_ & _ & C & _). destruct S' as (De' & _ & C' & _). now apply (loaded_view h ps vars p nm N meta meta' e e').
  Qed.
  Lemma body_same n n1 n1' : (forall m, n_parsed n = PMarkdown m -> asking N (md_tokens m)) -> is_file n = true ->
    preprocess (build_pr h meta vars i) n = Ok n1 -> preprocess (build_pr h meta' vars i') n = Ok n1' -> n1 = n1'.
  Proof.
    intros A F P P'. destruct n as [name b pc mt src|]; [|discriminate]. cbn [preprocess n_parsed] in *. destruct pc; try congruence.
    destruct (preprocess_markdown (build_pr h meta vars i) src m) as [m1| | |] eqn:E; cbn [map_err bind] in P; try discriminate.
    rewrite (body_view _ _ _ _ _ _ raw_view (A _ eq_refl) E) in P'. cbn [map_err bind] in P'. congruence.
  Qed.
  Hypothesis Closed : forall s qs q s2, N s -> path_of s qs -> has_ext q (lit "md") -> asks_for h ps e (qs ++ [q]) s2 -> N s2.
  Lemma ready_view : pr_views (asking N) (build_pr h meta vars i1) (build_pr h meta' vars i1').
  Proof.
    destruct S as (De & _ & C & P). destruct S' as (De' & _ & C' & P').
    assert (J : forall s qs m v b pc mt sr k, N s -> path_of s qs -> walk i1 qs = Some m -> m = NFile k b pc mt sr -> pc = PJson v -> walk i1' qs = Some m).
    { intros s qs m v b pc mt sr k Ns Pq W Em Ep. pose proof (walk_preprocess _ qs _ _ P) as Q. rewrite W in Q. destruct (walk i qs) as [m0|] eqn:W0; [|contradiction]. subst m.
      pose proof (json_preprocess _ _ _ _ _ _ _ _ Q Ep) as ->.
      destruct (create_walk _ _ _ _ _ _ _ _ C W0) as (x & A & B). destruct x as [bb|l|]; cbn [create_from] in B; [| |discriminate].
      - apply (proj1 (Same _ _ Ns Pq)) in A. destruct (walk_create _ _ _ _ _ A De' _ _ _ C') as (m' & W' & B'). cbn [create_from] in B'. rewrite B in B'. injection B' as <-.
        pose proof (walk_preprocess _ qs _ _ P') as Q'. rewrite W' in Q'. destruct (walk i1' qs) as [m1'|]; [|contradiction]. cbn [preprocess] in Q'. rewrite Ep in Q'. injection Q' as <-. now rewrite Ep.
      - destruct (map_res _ l); cbn [bind] in B; try discriminate. }
    split; [reflexivity|]. split; [reflexivity|]. exists i1, i1'. split; [reflexivity|]. split; [reflexivity|]. intros toks Ask. split; [reflexivity|reflexivity| |]; cbn [w_toks]; intros t.
    - intros f st vs I T E. unfold for_values in *. cbn [w_input] in *. destruct (ff_type f) eqn:Ft; [| |now exists vs].
      + assert (Ns : N (ff_src f)) by (apply (Ask t); [exact I|]; rewrite T; constructor; congruence).
        unfold get_at_path in *. destruct (components (ff_src f)) as [qs|] eqn:Cs; [|discriminate]. apply components_path in Cs.
        destruct (walk i1 qs) as [[|k ch1 sr]|] eqn:W1; try discriminate. pose proof (walk_preprocess _ qs _ _ P) as Q. rewrite W1 in Q. destruct (walk i qs) as [m0|] eqn:W; [|contradiction].
        destruct (create_walk _ _ _ _ _ _ _ _ C W) as (x & A & B). destruct x as [bb|l|]; cbn [create_from] in B; [| |discriminate].
        { destruct (create_file_kind _ _ _ _ _ _ B) as (pc & -> & _). destruct (file_preprocess _ (NFile (last qs nm) bb pc None (p ++ qs)) _ eq_refl Q) as [_ X]. discriminate. }
        destruct (map_res _ l) as [ch| | |] eqn:M; cbn [bind] in B; try discriminate. injection B as <-. apply map_res_ok in M.
        cbn [preprocess] in Q. destruct (map_res _ ch) as [ch2| | |] eqn:Mp; cbn [bind] in Q; try discriminate. injection Q as <- -> <-. apply map_res_ok in Mp.
        destruct (posts_total l) as [ms Pm]. destruct (proj1 (proj2 (Same _ _ Ns Cs) ms)) as (l' & A' & Pm'); [now exists l|].
        destruct (walk_create _ _ _ _ _ A' De' _ _ _ C') as (m' & W' & B'). cbn [create_from] in B'. destruct (map_res _ l') as [ch'| | |] eqn:M'; cbn [bind] in B'; try discriminate. injection B' as <-. apply map_res_ok in M'.
        pose proof (walk_preprocess _ qs _ _ P') as Q'. rewrite W' in Q'. destruct (walk i1' qs) as [m1'|]; [|contradiction].
        cbn [preprocess] in Q'. destruct (map_res _ ch') as [ch2'| | |] eqn:Mp'; cbn [bind] in Q'; try discriminate. injection Q' as <-. apply map_res_ok in Mp'.
        pose proof (posts_loaded h ps _ _ _ Pm _ M) as L. pose proof (posts_loaded h ps _ _ _ Pm' _ M') as L'.
        assert (Ec : filter is_md ch = filter is_md ch'). { eapply forall2_fun; [exact L| |exact L']. cbn beta. intros; congruence. }
        exists vs. split; [|reflexivity]. rewrite <- E. rewrite <- (values_md ch1), <- (values_md ch2'). f_equal. symmetry.
        apply md_preprocess in Mp, Mp'. rewrite <- Ec in Mp'. eapply forall2_fun; [exact Mp| |exact Mp']. cbn beta. intros c c1 c1' Ic X X'.
        destruct (Forall2_in_r _ _ _ _ L Ic) as ((k0 & b0) & I0 & C0). cbn [fst snd] in C0. destruct (posts_in _ _ Pm _ _ I0) as [I2 X2].
        assert (A2 : ent_at e (qs ++ [k0]) (EFile b0)). { eapply ent_at_app; [exact A|]. econstructor; [exact I2|constructor]. }
        rewrite <- app_assoc in C0. destruct (file_asks h ps e p qs k0 b0 c N A2 C0) as [_ Am]; [intros s2; now apply (Closed (ff_src f) qs k0)|].
        assert (Fc : is_file c = true) by (destruct (create_file_kind _ _ _ _ _ _ C0) as (pc & -> & _); reflexivity). now apply (body_same c).
      + assert (Ns : N (ff_src f)) by (apply (Ask t); [exact I|]; rewrite T; constructor; congruence).
        unfold get_at_path in *. destruct (components (ff_src f)) as [qs|] eqn:Cs; [|discriminate]. apply components_path in Cs.
        destruct (walk i1 qs) as [[k b [] mt sr|k ch sr]|] eqn:W; try discriminate. rewrite (J _ _ _ _ _ _ _ _ _ Ns Cs W eq_refl eq_refl). now exists vs.
    - intros v file s s' I T E. unfold exec_import in *. cbn [w_input] in *. assert (Ns : N file) by (apply (Ask t); [exact I|]; rewrite T; constructor).
      unfold get_at_path in *. destruct (components file) as [qs|] eqn:Cs; [|discriminate]. apply components_path in Cs.
      destruct (walk i1 qs) as [[k b [] mt sr|k ch sr]|] eqn:W; try discriminate. now rewrite (J _ _ _ _ _ _ _ _ _ Ns Cs W eq_refl eq_refl).
  Qed.
  (** The same file in both. *)
  Lemma file_same ks name b anc f : ent_at e (ks ++ [name]) (EFile b) -> ent_at e' (ks ++ [name]) (EFile b) ->
    (has_ext name (lit "md") -> forall s, asks_for h ps e (ks ++ [name]) s -> N s) ->
    spine i1 [] (ks ++ [name]) anc f -> exists anc', spine i1' [] (ks ++ [name]) anc' f.
  Proof.
    intros A A' Q Sp. destruct (site_facts _ _ _ _ _ _ _ _ _ S) as (Di & D1 & Ki & _ & St). destruct (site_facts _ _ _ _ _ _ _ _ _ S') as (Di' & D1' & Ki' & _ & St').
    destruct (stands_at _ _ _ _ A nm i1 [] St) as (anc0 & f0 & k0 & Sp0 & Sf0). destruct (spine_unique _ _ _ _ _ Sp D1 _ _ Sp0) as [<- <-].
    assert (Ff : is_file f = true) by (inversion Sf0; assumption).
    destruct (stands_at _ _ _ _ A' nm i1' [] St') as (anc' & f' & k' & Sp' & Sf'). assert (Ff' : is_file f' = true) by (inversion Sf'; assumption).
    destruct S as (De & _ & C & P). destruct S' as (De' & _ & C' & P').
    destruct (loaded_at _ _ _ _ _ _ _ _ Sp Ff _ _ _ _ C P) as (b1 & n0 & A1 & B1 & Q1).
    destruct (loaded_at _ _ _ _ _ _ _ _ Sp' Ff' _ _ _ _ C' P') as (b2 & n0' & A2 & B2 & Q2).
    assert (X := ent_unique _ _ _ A De _ A1). injection X as <-. assert (X := ent_unique _ _ _ A' De' _ A2). injection X as <-.
    rewrite B1 in B2. injection B2 as <-. rewrite last_last in B1.
    assert (f = f') as ->; [|now exists anc']. apply (body_same n0); [|destruct (create_file_kind _ _ _ _ _ _ B1) as (pc & -> & _); reflexivity|exact Q1|exact Q2].
    intros m Em. pose proof (file_tokens h ps p e name b (ks ++ [name]) ks n0 eq_refl A B1) as T. rewrite Em in T. destruct T as [X _].
    destruct (file_asks h ps e p ks name b n0 N A B1 (Q X)) as [_ Am]. now apply Am.
  Qed.
End Two.

(** ** Pages *)
Lemma process_asking P pr pr' e name b pc src o : pr_views P pr pr' -> env_in P e -> (forall t, pc = PHtml t -> P t) -> process_file pr e name b pc src = Ok o ->
  exists nm bs meta meta', o = NFile nm bs PNone meta src /\ process_file pr' e name b pc src = Ok (NFile nm bs PNone meta' src).
Proof.
  intros V En Pt. unfold process_file. destruct (is_template_name name); [cbn [bind]; intros E; injection E as <-; repeat eexists|].
  destruct pc as [t|m|v|c| |]; try (cbn [bind]; intros E; injection E as <-; repeat eexists).
  - destruct (process_html pr e src t) as [x| | |] eqn:Q; cbn [map_err bind]; try discriminate. intros E; injection E as <-.
    assert (Pt' : forall t', PageHtml t = PageHtml t' -> P t') by (intros t' X; injection X as <-; now apply Pt).
    pose proof (render_view _ _ _ e src (PageHtml t) x V En Pt' Q) as R. cbn [render_page] in R. rewrite R. cbn [map_err bind]. repeat eexists.
  - destruct (process_markdown pr e src name m) as [x| | |] eqn:Q; cbn [map_err bind]; try discriminate. intros E; injection E as <-.
    assert (Pt' : forall t', PageMd name m = PageHtml t' -> P t') by discriminate.
    pose proof (render_view _ _ _ e src (PageMd name m) x V En Pt' Q) as R. cbn [render_page] in R. rewrite R. cbn [map_err bind]. repeat eexists.
  - destruct (np_process c e) as [x|x]; cbn [bind]; try discriminate. intros E; injection E as <-. repeat eexists.
Qed.
Lemma template_html t : is_template t -> ~ has_ext t (lit "md").
Proof. intros [-> | ->] X; apply extension_spec in X; discriminate X. Qed.
Lemma there_sym e e' qs : same_there e e' qs -> same_there e' e qs.
Proof. intros [A B]. split; intros x; symmetry; [apply A|apply B]. Qed.
Lemma tmpl_same h ps vars p nm (N : text -> Prop) meta meta' e e' i i' i1 i1' ks1 t r : site_of h ps vars p nm meta e i i1 -> site_of h ps vars p nm meta' e' i' i1' ->
  (forall s qs, N s -> path_of s qs -> same_there e e' qs) -> is_template t ->
  (forall b, ent_at e (ks1 ++ [t]) (EFile b) -> ent_at e' (ks1 ++ [t]) (EFile b)) ->
  ((exists l, ent_at e (ks1 ++ [t]) (EDir l)) -> (exists l, ent_at e' (ks1 ++ [t]) (EDir l))) -> tmpl i1 (ks1 ++ [t]) r -> tmpl i1' (ks1 ++ [t]) r.
Proof.
  intros S S' Same It T Td (m & A & <-). destruct (at_spine _ _ _ A []) as [anc Sp].
  destruct (site_facts _ _ _ _ _ _ _ _ _ S) as (_ & _ & _ & _ & St). destruct (site_facts _ _ _ _ _ _ _ _ _ S') as (_ & _ & _ & _ & St').
  destruct (spine_stands _ _ _ _ _ _ Sp _ _ St) as (k & x & Ax & Sx). inversion Sx as [? b ? R Nn F|? l ch src F]; subst.
  - destruct (file_same h ps vars p nm N _ _ _ _ _ _ _ _ S S' Same ks1 t b anc m Ax (T b Ax)) as [anc' Sp']; [intros X; now apply template_html in X|exact Sp|]. exists m. split; [eapply spine_at; exact Sp'|reflexivity].
  - destruct Td as [l2 B2]; [now exists l|]. destruct (stands_dir _ _ _ _ B2 _ _ [] St') as (anc' & nm' & ch' & src' & Sp' & _). exists (NDir nm' ch' src'). split; [eapply spine_at; exact Sp'|reflexivity].
Qed.
Lemma needed_page h osenv mode d d' st st' e e' out out' :
  snd (build h osenv mode d st) = Ok tt -> st_output (fst (build h osenv mode d st)) = Some out -> sd_ent d = Some e ->
  snd (build h osenv mode d' st') = Ok tt -> st_output (fst (build h osenv mode d' st')) = Some out' -> sd_ent d' = Some e' ->
  sd_path d' = sd_path d -> sd_name d' = sd_name d -> st_plugins st' = st_plugins st -> ent_distinct e -> ent_distinct e' ->
  forall ks name b, ent_at e (ks ++ [name]) (EFile b) -> ent_at e' (ks ++ [name]) (EFile b) -> same_around e e' ks ->
  (forall s qs, needs h (st_plugins st) e ks name s -> path_of s qs -> same_there e e' qs) ->
  forall nm o, page_from out ks (sd_path d ++ ks ++ [name]) nm o -> page_from out' ks (sd_path d ++ ks ++ [name]) nm o.
Proof.
  intros B O E B' O' E' Pa Na Pl De De' ks name b A A' T Same nm o (pc & mt & At).
  destruct (build_run _ _ _ _ _ _ _ B O E) as (l & i & rn & ch & src & ch1 & El & C & P & M & ->).
  destruct (build_run _ _ _ _ _ _ _ B' O' E') as (l' & i' & rn' & ch' & src' & ch1' & El' & C' & P' & M' & ->).
  rewrite Pa, Na, Pl in C'. set (vars := build_vars osenv mode) in *. set (N := needs h (st_plugins st) e ks name) in *.
  assert (S : site_of h (st_plugins st) vars (sd_path d) (sd_name d) (cf_meta (st_config st)) e i (NDir rn ch src)) by (repeat split; try assumption; now exists l).
  assert (S' : site_of h (st_plugins st) vars (sd_path d) (sd_name d) (cf_meta (st_config st')) e' i' (NDir rn' ch' src')) by (repeat split; try assumption; now exists l').
  assert (Closed : forall s qs q s2, N s -> path_of s qs -> has_ext q (lit "md") -> asks_for h (st_plugins st) e (qs ++ [q]) s2 -> N s2).
  { intros s qs q s2 Ns Pq X Q. exact (ne_post _ _ _ _ _ _ _ _ _ Ns Pq X Q). }
  destruct (site_facts _ _ _ _ _ _ _ _ _ S) as (Di & D1 & Ki & K1 & St). destruct (site_facts _ _ _ _ _ _ _ _ _ S') as (Di' & D1' & Ki' & K1' & St').
  assert (F0 : forall c, in_force vars [c] (env_update (env_update (Env vars None None) c) c)).
  { intros c. apply in_force_again, in_force_update. repeat split; constructor. }
  remember (ks ++ [nm]) as kk eqn:Ek. inversion At as [|? ? ? c1 ks' ? Ic1 At']; subst.
  match goal with H : _ :: _ = ks ++ [nm] |- _ => rename H into Ek end.
  destruct (origin _ vars (NDir rn ch src) _ [] [] rn ch src _ ch1 eq_refl (sp_here _ _) (F0 ch) M _ _ _ _ _ _ _ Ic1 At')
    as (dirs & anc1 & nm1 & chp & src1 & c & e1 & Ed & Sp & Ic & Fc & Fo & Bc). cbn [app] in Sp.
  rewrite Ek in Ed. apply app_inj_tail in Ed. destruct Ed as [<- _].
  assert (Spc : spine (NDir rn ch src) [] (ks ++ [n_name c]) (chp :: anc1) c) by (eapply spine_app; [exact Sp|]; econstructor; [exact Ic|constructor]).
  destruct (loaded_at _ _ _ _ _ _ _ _ Spc Fc _ _ _ _ C P) as (b1 & n0 & A1 & B1 & Q1).
  destruct (created_source _ _ _ _ _ _ B1) as [Sn0 _]. destruct (preprocess_source _ _ _ Q1) as [Sc Nc]. rewrite Sn0 in Sc.
  destruct c as [cn cb cp cm cs|]; [|discriminate]. cbn [n_source n_name build_node] in *.
  assert (Es : cs = sd_path d ++ ks ++ [name]).
  { clear - Bc. unfold process_file in Bc. match type of Bc with bind ?x _ = _ => destruct x as [o'| | |] end; cbn [bind] in Bc; try discriminate. now injection Bc. }
  assert (cn = name) as ->. { rewrite Es in Sc. apply app_inv_head in Sc. apply app_inv_head in Sc. now injection Sc. }
  assert (Ep : forall t, cp = PHtml t -> asking N t).
  { destruct (ready_tokens _ _ _ _ _ _ C _ _ _ _ _ _ _ P eq_refl Spc eq_refl) as (bb & _ & _ & _ & Tk). cbn [n_parsed] in Tk. intros t ->. destruct Tk as (_ & body & T1 & T2).
    intros k s I K. apply ne_own. exists body, (map t_inner t), (t_inner k). split; [exact T1|]. split; [eapply parse_means; eauto|]. split; [now apply in_map|exact K]. }
  assert (Et : forall tn t, is_template tn -> template_of tn (chp :: anc1) (Some t) -> asking N t).
  { intros tn t It Tm. destruct (template_tokens _ _ _ _ _ _ C _ _ P _ _ _ _ _ _ Spc Tm) as (ks1 & ks2 & body & Ek2 & T1 & T2).
    intros k s I K. eapply ne_template; [exact Ek2|exact It|]. exists body, (map t_inner t), (t_inner k). split; [exact T1|]. split; [eapply parse_means; eauto|]. split; [now apply in_map|exact K]. }
  assert (En : env_in (asking N) e1).
  { destruct Fo as (V & R & Md). split; intros t Q.
    - rewrite Q in R. apply (Et (lit "root.html")); [now left|exact R].
    - rewrite Q in Md. apply (Et (lit "md.html")); [now right|exact Md]. }
  destruct (process_asking _ _ _ _ _ _ _ _ _ (ready_view _ _ _ _ _ N _ _ _ _ _ _ _ _ S S' Same Closed) En Ep Bc) as (x1 & x2 & x3 & meta' & Ex & Bc'). injection Ex as <- <- -> <- _.
  assert (NE : ks ++ [name] <> []) by now destruct ks.
  destruct (file_same h (st_plugins st) vars (sd_path d) (sd_name d) N _ _ _ _ _ _ _ _ S S' Same ks name b _ _ A A' (fun _ s => ne_own _ _ _ _ _ s) Spc) as [anc' Spc'].
  destruct (spine_split _ _ _ _ _ _ Spc') as (anc1' & dd & Sp' & Sl). inversion Sl as [|nm1' chp' src1' c2 ? ? ? ? Ic2 Sl2]; subst. inversion Sl2; subst.
  match goal with H : c2 = NFile (n_name c2) _ _ _ _, K : n_name c2 = _ |- _ => rewrite K in H; clear K; clear Sl2; subst c2 end.
  destruct (reach (build_pr h (cf_meta (st_config st')) vars (NDir rn' ch' src')) vars _ _ _ _ _ Sp' _ _ _ _ _ _ _ _ _ eq_refl eq_refl (F0 ch') M' Ic2 eq_refl) as (e1' & c3 & Fo' & Bc3 & At3).
  assert (Al : Forall2 alike_in (chp :: anc1) (chp' :: anc1')).
  { eapply (spine_alike _ _ _ _ _ Sp); [reflexivity|exact D1|exact Sp'|exact D1'|constructor|]. intros ks1 ks2 t r Ek2 It. destruct (T ks1 ks2 t Ek2 It) as [T1 T2]. split; intros Tm.
    - eapply (tmpl_same _ _ _ _ _ N); [exact S|exact S'|exact Same|exact It| | |exact Tm]; [intros bb; apply T1|apply T2].
    - eapply (tmpl_same _ _ _ _ _ N); [exact S'|exact S| |exact It| | |exact Tm]; [intros s qs Ns Pq; apply there_sym; eauto|intros bb; apply T1|apply T2]. }
  assert (Ee : e1' = e1).
  { destruct (spine_distinct _ _ _ _ _ Sp' D1') as [Dd Da]; [constructor|]. inversion Dd as [|? ? ? Dn _]; subst.
    assert (Dall : Forall (fun c => NoDup (map n_name c)) (chp' :: anc1')) by now constructor.
    destruct Fo as (V & R & Md). destruct Fo' as (V' & R' & Md'). destruct e1 as [v1 r1 m1], e1' as [v1' r1' m1']. cbn [ev_vars ev_root ev_md] in *.
    assert (r1' = r1) by (eapply template_unique; [exact Dall|exact R'|]; eapply template_alike; [now left|exact R|exact Al]).
    assert (m1' = m1) by (eapply template_unique; [exact Dall|exact Md'|]; eapply template_alike; [now right|exact Md|exact Al]). congruence. }
  subst e1'. cbn [build_node] in Bc3. rewrite Bc' in Bc3. injection Bc3 as <-. exists PNone, meta'. exact At3.
Qed.

(** ** Both ways *)
Lemma asks_same h ps e e' ks name s : (forall b, ent_at e' (ks ++ [name]) (EFile b) -> ent_at e (ks ++ [name]) (EFile b)) -> asks_for h ps e' (ks ++ [name]) s -> asks_for h ps e (ks ++ [name]) s.
Proof.
  intros F (body & toks & k & (dirs & n & b & t & Ek & A & U & X) & R). exists body, toks, k. split; [|exact R]. exists dirs, n, b, t. split; [exact Ek|]. split; [now apply F|]. now split.
Qed.
Lemma needs_same h ps e e' ks name b : ent_distinct e' -> ent_at e (ks ++ [name]) (EFile b) -> ent_at e' (ks ++ [name]) (EFile b) -> same_around e e' ks ->
  (forall s qs, needs h ps e ks name s -> path_of s qs -> same_there e e' qs) -> forall s, needs h ps e' ks name s -> needs h ps e ks name s.
Proof.
  intros De' A A' T Same s. induction 1 as [s Q|ks1 ks2 t s Ek It Q|s0 qs q s Ns IH Pq X Q].
  - apply ne_own. apply (asks_same h ps e e'); [|exact Q]. intros b' J. pose proof (ent_unique _ _ _ A' De' _ J) as Y. injection Y as <-. exact A.
  - eapply ne_template; [exact Ek|exact It|]. apply (asks_same h ps e e'); [|exact Q]. intros b'. apply (T ks1 ks2 t Ek It).
  - eapply ne_post; [exact IH|exact Pq|exact X|]. apply (asks_same h ps e e'); [|exact Q]. intros b' J. destruct (ent_at_dir _ _ _ _ J) as (l & Al & I).
    destruct (posts_total l) as [ms Pm]. destruct (proj2 (proj2 (Same _ _ IH Pq) ms)) as (l' & Al' & Pm'); [now exists l|].
    assert (Im : In (q, b') ms). { clear - Pm I X. induction Pm as [|k b l r Y P IH|k e l r Y P IH]; [destruct I| |].
      - destruct I as [I|I]; [injection I as -> ->; now left|right; now apply IH].
      - destruct I as [I|I]; [injection I as -> ->; destruct Y as [Y|Y]; [contradiction|now destruct (Y b')]|now apply IH]. }
    destruct (posts_in _ _ Pm' _ _ Im) as [I2 _]. eapply ent_at_app; [exact Al'|]. econstructor; [exact I2|constructor].
Qed.
Lemma around_sym e e' ks : same_around e e' ks -> same_around e' e ks.
Proof. intros T ks1 ks2 t Ek It. destruct (T ks1 ks2 t Ek It) as [T1 T2]. split; [intros b; symmetry; apply T1|symmetry; exact T2]. Qed.
Lemma page_needs h osenv mode d d' st st' e e' out out' :
  snd (build h osenv mode d st) = Ok tt -> st_output (fst (build h osenv mode d st)) = Some out -> sd_ent d = Some e ->
  snd (build h osenv mode d' st') = Ok tt -> st_output (fst (build h osenv mode d' st')) = Some out' -> sd_ent d' = Some e' ->
  sd_path d' = sd_path d -> sd_name d' = sd_name d -> st_plugins st' = st_plugins st -> ent_distinct e -> ent_distinct e' ->
  forall ks name b, ent_at e (ks ++ [name]) (EFile b) -> ent_at e' (ks ++ [name]) (EFile b) -> same_around e e' ks ->
  (forall s qs, needs h (st_plugins st) e ks name s -> path_of s qs -> same_there e e' qs) ->
  forall nm o, page_from out ks (sd_path d ++ ks ++ [name]) nm o <-> page_from out' ks (sd_path d ++ ks ++ [name]) nm o.
Proof.
  intros B O E B' O' E' Pa Na Pl De De' ks name b A A' T Same nm o. split.
  - eapply (needed_page h osenv mode d d' st st'); eassumption.
  - rewrite <- Pa. eapply (needed_page h osenv mode d' d st' st); try eassumption; try (symmetry; assumption); [now apply around_sym|].
    intros s qs Ns Pq. apply there_sym. rewrite Pl in Ns. eapply Same; [|exact Pq]. eapply needs_same; eassumption.
Qed.

(** ** Changing one file *)
Lemma changed_sym qs qn e e' : changed qs qn e e' -> changed qs qn e' e.
Proof. induction 1; now constructor. Qed.
Lemma maybe_in name o k x : In (k, x) (maybe_file name o) -> k = name /\ exists b, x = EFile b.
Proof. destruct o; cbn [maybe_file]; [intros [X|[]]; injection X as <- <-; eauto|intros []]. Qed.
Lemma changed_at qs qn e e' : changed qs qn e e' -> forall ks b, ks <> qs ++ [qn] -> ent_at e ks (EFile b) -> ent_at e' ks (EFile b).
Proof.
  induction 1 as [name o o' l1 l2 N|k qs name e e' l1 l2 Ed IH]; intros ks b Nk A; inversion A as [|l ? x ks' ? I A']; subst.
  - apply in_app_or in I. destruct I as [I|I]; [|apply in_app_or in I; destruct I as [I|I]].
    + econstructor; [apply in_or_app; left; exact I|exact A'].
    + apply maybe_in in I. destruct I as (-> & b0 & ->). inversion A'; subst. now destruct Nk.
    + econstructor; [apply in_or_app; right; apply in_or_app; right; exact I|exact A'].
  - apply in_app_or in I. destruct I as [I|[I|I]].
    + econstructor; [apply in_or_app; left; exact I|exact A'].
    + injection I as <- <-. econstructor; [apply in_or_app; right; now left|]. apply IH; [|exact A']. intros ->. now destruct Nk.
    + econstructor; [apply in_or_app; right; right; exact I|exact A'].
Qed.
(** A directory is a directory in both, and with the same markdown files unless the file is one of them. *)
Lemma posts_app l1 m1 l2 m2 : posts l1 m1 -> posts l2 m2 -> posts (l1 ++ l2) (m1 ++ m2).
Proof. induction 1; intros P; cbn [app]; [exact P|constructor; auto|apply po_skip; auto]. Qed.
Lemma posts_split l1 : forall l2 m, posts (l1 ++ l2) m -> exists m1 m2, m = m1 ++ m2 /\ posts l1 m1 /\ posts l2 m2.
Proof.
  induction l1 as [|[k e] l1 IH]; intros l2 m P; cbn [app] in P.
  - exists [], m. split; [reflexivity|]. split; [constructor|exact P].
  - inversion P as [|? b ? r X P'|? ? ? r X P']; subst; destruct (IH _ _ P') as (m1 & m2 & -> & P1 & P2).
    + exists ((k, b) :: m1), m2. split; [reflexivity|]. split; [now constructor|exact P2].
    + exists m1, m2. split; [reflexivity|]. split; [now apply po_skip|exact P2].
Qed.
Lemma posts_maybe name o : ~ has_ext name (lit "md") -> posts (maybe_file name o) [].
Proof. intros X. destruct o; cbn [maybe_file]; [apply po_skip; [now left|constructor]|constructor]. Qed.
Lemma changed_dir qs qn e e' : changed qs qn e e' -> (exists l, e = EDir l) /\ (exists l, e' = EDir l).
Proof. destruct 1; split; eauto. Qed.
Lemma changed_listing qs qn e e' : changed qs qn e e' -> forall ks l, ent_at e ks (EDir l) ->
  exists l', ent_at e' ks (EDir l') /\ ((has_ext qn (lit "md") -> ks <> qs) -> forall ms, posts l ms -> posts l' ms).
Proof.
  induction 1 as [name o o' l1 l2 N|k qs name e e' l1 l2 Ed IH]; intros ks l A; inversion A as [|l0 ? x ks' ? I A']; subst.
  - eexists. split; [constructor|]. intros X ms P. destruct (posts_split _ _ _ P) as (m1 & m2 & -> & P1 & P2). destruct (posts_split _ _ _ P2) as (m3 & m4 & -> & P3 & P4).
    assert (Xn : ~ has_ext name (lit "md")) by (intros Y; now apply (X Y)). pose proof (posts_unique _ _ P3 _ (posts_maybe _ o Xn)) as ->. cbn [app].
    apply posts_app; [exact P1|]. apply (posts_app _ [] _ m4); [now apply posts_maybe|exact P4].
  - exists l. split; [|auto]. apply in_app_or in I. destruct I as [I|I]; [|apply in_app_or in I; destruct I as [I|I]].
    + econstructor; [apply in_or_app; left; exact I|exact A'].
    + apply maybe_in in I. destruct I as (-> & b0 & ->). inversion A'.
    + econstructor; [apply in_or_app; right; apply in_or_app; right; exact I|exact A'].
  - eexists. split; [constructor|]. intros _ ms P. destruct (posts_split _ _ _ P) as (m1 & m2 & -> & P1 & P2). apply posts_app; [exact P1|].
    destruct (changed_dir _ _ _ _ Ed) as [[le ->] [le' ->]]. inversion P2 as [|? ? ? ? ? ?|? ? ? ? X P3]; subst. apply po_skip; [right; discriminate|exact P3].
  - apply in_app_or in I. destruct I as [I|[I|I]].
    + exists l. split; [econstructor; [apply in_or_app; left; exact I|exact A']|auto].
    + injection I as <- <-. destruct (IH _ _ A') as (l' & B & Q). exists l'. split; [econstructor; [apply in_or_app; right; now left|exact B]|].
      intros X. apply Q. intros Y ->. now apply (X Y).
    + exists l. split; [econstructor; [apply in_or_app; right; right; exact I|exact A']|auto].
Qed.
Lemma changed_distinct qs qn e e' : changed qs qn e e' -> ent_distinct e -> ent_distinct e'.
Proof.
  induction 1 as [name o o' l1 l2 N|k qs name e e' l1 l2 Ed IH]; intros D; inversion D as [| |? D1 D2]; subst; constructor.
  - rewrite !map_app in *. assert (H : NoDup (map fst l1 ++ map fst l2)) by (destruct o; cbn [maybe_file map app] in D1; [now apply NoDup_remove_1 in D1|exact D1]).
    destruct o'; cbn [maybe_file map app]; [|exact H]. now apply NoDup_Add with (1 := Add_app name (map fst l1) (map fst l2)).
  - rewrite !Forall_app in *. destruct D2 as (F1 & F2 & F3). split; [exact F1|]. split; [|exact F3]. destruct o'; cbn [maybe_file]; repeat constructor.
  - rewrite map_app in *. exact D1.
  - apply Forall_app in D2 as [F1 F2]. inversion F2 as [|? ? X F3]; subst. apply Forall_app. split; [exact F1|]. constructor; [now apply IH|exact F3].
Qed.
Lemma changed_page h osenv mode d d' st st' e e' out out' qs qn :
  snd (build h osenv mode d st) = Ok tt -> st_output (fst (build h osenv mode d st)) = Some out -> sd_ent d = Some e ->
  snd (build h osenv mode d' st') = Ok tt -> st_output (fst (build h osenv mode d' st')) = Some out' -> sd_ent d' = Some e' ->
  sd_path d' = sd_path d -> sd_name d' = sd_name d -> st_plugins st' = st_plugins st -> ent_distinct e -> changed qs qn e e' ->
  forall ks name b, ks ++ [name] <> qs ++ [qn] -> (is_template qn -> forall ks2, ks <> qs ++ ks2) -> ent_at e (ks ++ [name]) (EFile b) ->
  (forall s pl, needs h (st_plugins st) e ks name s -> path_of s pl -> pl <> qs ++ [qn] /\ (has_ext qn (lit "md") -> pl <> qs)) ->
  forall nm o, page_from out ks (sd_path d ++ ks ++ [name]) nm o <-> page_from out' ks (sd_path d ++ ks ++ [name]) nm o.
Proof.
  intros B O E B' O' E' Pa Na Pl De Ed ks name b NE NT A Nd nm o.
  assert (Ed' := changed_sym _ _ _ _ Ed). assert (De' := changed_distinct _ _ _ _ Ed De). assert (A' := changed_at _ _ _ _ Ed _ _ NE A).
  eapply (page_needs h osenv mode d d' st st'); try eassumption.
  - intros ks1 ks2 t -> It. assert (N : ks1 ++ [t] <> qs ++ [qn]). { intros X. apply app_inj_tail in X as [-> ->]. now apply (NT It ks2). }
    split; [intros bb; split; now apply (changed_at qs qn)|]. split; intros [l Al].
    + destruct (changed_listing _ _ _ _ Ed _ _ Al) as (l' & B1 & _). eauto.
    + destruct (changed_listing _ _ _ _ Ed' _ _ Al) as (l' & B1 & _). eauto.
  - intros s pl Ns Pq. destruct (Nd s pl Ns Pq) as [N1 N2]. split; [intros bb; split; now apply (changed_at qs qn)|]. intros ms. split; intros (l & Al & P).
    + destruct (changed_listing _ _ _ _ Ed _ _ Al) as (l' & B1 & Q). exists l'. split; [exact B1|]. now apply Q.
    + destruct (changed_listing _ _ _ _ Ed' _ _ Al) as (l' & B1 & Q). exists l'. split; [exact B1|]. now apply Q.
Qed.

(** ** For examples *)
Lemma path_components s qs : path_of s qs -> components s = Some qs.
Proof.
  intros (hd & tl & -> & F & H & P). unfold components. inversion F; subst. rewrite split_slashed by assumption. apply path_names_iff in P. destruct P as [P ->]. rewrite P.
  assert (S : starts_with [c_slash] (slashed hd tl) = false); [|now rewrite S].
  destruct hd as [|d hd]; [now rewrite (H eq_refl)|]. assert (d <> c_slash) by (intros ->; cbn in *; tauto).
  assert (Q : exists r, slashed (d :: hd) tl = d :: r) by (destruct tl; cbn; eauto). destruct Q as [r ->]. unfold starts_with. cbn [strip_prefix].
  destruct (N.eqb_spec c_slash d) as [X|X]; [congruence|reflexivity].
Qed.
Lemma file_asks_only h ps e dirs name b t toks s : ent_distinct e -> ent_at e (dirs ++ [name]) (EFile b) -> from_utf8 b = Some t -> has_ext name (lit "html") ->
  parse_html (h_ext h) (fns ps) [] t = Ok toks -> asks_for h ps e (dirs ++ [name]) s -> exists k, In k (map t_inner toks) /\ asks k s.
Proof.
  intros D A U X P (body & ts & k & (dirs' & name' & b' & t' & Ek & A' & U' & W) & M & I & K). apply app_inj_tail in Ek. destruct Ek as [<- <-].
  pose proof (ent_unique _ _ _ A D _ A') as Y. injection Y as <-. apply Utf8Facts.decoding in U'. rewrite U in U'. injection U' as <-.
  destruct W as [[_ ->]|[Y _]]; [|pose proof (has_ext_unique _ _ _ X Y) as Z; discriminate Z]. exists k. split; [|exact K].
  assert (M' : SpecGrammar.means (h_ext h) (fns ps) t (map t_inner toks)) by (apply (parse_means _ _ []); eauto). pose proof (one_meaning _ _ _ _ _ M M') as ->. exact I.
Qed.
Lemma no_file_asks h ps e dirs name s : (forall b, ~ ent_at e (dirs ++ [name]) (EFile b)) -> ~ asks_for h ps e (dirs ++ [name]) s.
Proof. intros N (body & ts & k & (dirs' & name' & b' & t' & Ek & A' & _) & _). exact (N _ A'). Qed.
