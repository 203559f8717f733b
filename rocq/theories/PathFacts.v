(** PathFacts.v -- paths into trees (C37) and the union of trees (C38). *)

From Coq Require Import String List NArith ZArith Bool Lia.
From Verif Require Import Text Utf8 Json Base Syntax Parse Tree Interp Build SpecScope SpecPage SpecTree.
From Verif Require Import TextFacts InterpFacts ScopeFacts TreeFacts.
Import ListNotations.

(** ** Paths *)
Lemma split_slashed p : forall h, ~ In c_slash h -> Forall (fun k => ~ In c_slash k) p -> split_char c_slash (slashed h p) = (h, p).
Proof.
  induction p as [|k p IH]; intros h Hh Hp; cbn [slashed].
  - now apply split_char_nil.
  - inversion Hp; subst. apply split_char_app; [exact Hh|]. now apply IH.
Qed.
Lemma split_char_slashed t : match split_char c_slash t with (h, r) => t = slashed h r end.
Proof.
  induction t as [|d t IH]; cbn; [reflexivity|].
  destruct (split_char c_slash t) as [h r]. destruct (N.eqb_spec d c_slash) as [->|NE].
  - cbn. now rewrite <- IH.
  - rewrite IH. now destruct r.
Qed.
Lemma path_names_iff l : forall ks, path_names l ks <->
  existsb (fun c => text_eqb c [c_dot; c_dot]) (filter keep_component l) = false /\ ks = filter keep_component l.
Proof.
  induction l as [|c l IH]; intros ks; cbn [filter].
  - split; [intros H; inversion H; subst; now split|intros [_ ->]; constructor].
  - destruct (keep_component c) eqn:KC; cbn [existsb]; unfold keep_component in KC.
    + apply andb_true_iff in KC. destruct KC as [E1 E2]. apply negb_true_iff in E1, E2. apply text_eqb_neq in E1, E2. split.
      * intros H. inversion H as [|? ? ? [X|X]|? ? ? ? ? N P]; subst; try contradiction. apply IH in P. destruct P as [P ->].
        split; [|reflexivity]. apply orb_false_iff. split; [now apply text_eqb_neq|exact P].
      * intros [H ->]. apply orb_false_iff in H. destruct H as [H1 H2]. apply text_eqb_neq in H1. apply pn_keep; try assumption. now apply IH.
    + assert (X : c = [] \/ c = [c_dot]).
      { apply andb_false_iff in KC. destruct KC as [E|E]; apply negb_false_iff, text_eqb_eq in E; tauto. }
      rewrite <- IH. split; intros H; [|now apply pn_skip]. inversion H; subst; [assumption|]. destruct X; contradiction.
Qed.
Lemma find_child_cons k c ch : find_child k (c :: ch) = if text_eqb (n_name c) k then Some c else find_child k ch.
Proof. reflexivity. Qed.
Lemma find_child_in ch c : NoDup (map n_name ch) -> In c ch -> find_child (n_name c) ch = Some c.
Proof.
  induction ch as [|d ch IH]; [contradiction|]. intros ND [->|H]; unfold find_child in *; cbn.
  - now rewrite text_eqb_refl.
  - inversion ND; subst. destruct (text_eqb (n_name d) (n_name c)) eqn:E; [|now apply IH].
    apply text_eqb_eq in E. exfalso. apply H2. rewrite E. now apply in_map.
Qed.
Lemma find_child_some k ch c : find_child k ch = Some c -> In c ch /\ n_name c = k.
Proof. intros H. apply find_some in H. destruct H as [H K]. split; [exact H|]. now apply text_eqb_eq in K. Qed.
Lemma find_child_none k ch : find_child k ch = None <-> ~ In k (map n_name ch).
Proof.
  unfold find_child. split.
  - intros H I. apply in_map_iff in I. destruct I as (c & <- & I). apply (find_none _ _ H) in I. now rewrite text_eqb_refl in I.
  - intros H. induction ch as [|c ch IH]; [reflexivity|]. cbn in *. destruct (text_eqb (n_name c) k) eqn:E.
    + apply text_eqb_eq in E. tauto.
    + apply IH. tauto.
Qed.
Lemma at_names_walk t ks n : distinct t -> at_names t ks n -> walk t ks = Some n.
Proof.
  intros D A. induction A as [|name ch src c ks n I A IH]; [reflexivity|]. inversion D as [|? ? ? ND F]; subst. cbn.
  rewrite (find_child_in _ _ ND I). apply IH. rewrite Forall_forall in F. now apply F.
Qed.
Lemma walk_at_names ks : forall t n, walk t ks = Some n -> at_names t ks n.
Proof.
  induction ks as [|k ks IH]; intros t n; cbn.
  - intros E; injection E as ->. constructor.
  - destruct t as [|name ch src]; cbn [n_children]; [discriminate|]. destruct (find_child k ch) as [c|] eqn:F; [|discriminate].
    apply find_child_some in F. destruct F as [F <-]. intros H. econstructor; [exact F|now apply IH].
Qed.
Lemma path_resolves t p n : distinct t -> (get_at_path t p = Some n <-> resolves t p n).
Proof.
  intros D. unfold get_at_path, components, resolves. split.
  - destruct (starts_with [c_slash] p) eqn:S; [discriminate|].
    pose proof (split_char_slashed p) as E. pose proof (split_char_spec c_slash p) as F. destruct (split_char c_slash p) as [h r].
    destruct (existsb _ _) eqn:X; [discriminate|]. intros W. exists h, r, (filter keep_component (h :: r)). split; [exact E|].
    destruct F as [F1 F2]. split; [now constructor|]. split; [|split; [now apply path_names_iff|now apply walk_at_names]].
    intros ->. destruct r as [|k r]; [reflexivity|]. subst p. discriminate.
  - intros (hd & tl & ks & -> & F & H & P & A). apply at_names_walk in A; [|exact D]. inversion F; subst.
    rewrite split_slashed by assumption. apply path_names_iff in P. destruct P as [P ->]. rewrite P.
    assert (S : starts_with [c_slash] (slashed hd tl) = false).
    { destruct hd as [|d hd]; [now rewrite (H eq_refl)|].
      assert (d <> c_slash) by (intros ->; cbn in *; tauto).
      assert (Q : exists r, slashed (d :: hd) tl = d :: r) by (destruct tl; cbn; eauto).
      destruct Q as [r ->]. unfold starts_with. cbn [strip_prefix].
      destruct (N.eqb_spec c_slash d) as [X|X]; [congruence|reflexivity]. }
    now rewrite S.
Qed.
Lemma absolute_unresolved t p n : ~ resolves t ([c_slash] ++ p) n.
Proof.
  intros (hd & tl & ks & E & F & H & _). destruct hd as [|d hd].
  - rewrite (H eq_refl) in E. discriminate.
  - inversion F as [|? ? F1]; subst. destruct tl; cbn in E; injection E as E _; subst d; apply F1; now left.
Qed.
Lemma dotdot_unresolved t hd tl n : Forall (fun k => ~ In c_slash k) (hd :: tl) -> In [c_dot; c_dot] (hd :: tl) -> ~ resolves t (slashed hd tl) n.
Proof.
  intros F I (hd' & tl' & ks & E & F' & H & P & _). apply Forall_cons_iff in F, F'. destruct F as [F1 F2], F' as [F1' F2'].
  pose proof (split_slashed tl hd F1 F2) as S. rewrite E, (split_slashed tl' hd' F1' F2') in S. injection S as -> ->.
  apply path_names_iff in P. destruct P as [P _].
  assert (X : existsb (fun c => text_eqb c [c_dot; c_dot]) (filter keep_component (hd :: tl)) = true).
  { apply existsb_exists. exists [c_dot; c_dot]. split; [|reflexivity]. apply filter_In. now split. }
  pose proof (eq_trans (eq_sym P) X) as Y. discriminate Y.
Qed.
Lemma resolves_inside t p n : resolves t p n -> inside n t.
Proof.
  intros (_ & _ & ks & _ & _ & _ & _ & A). induction A; [constructor|]. econstructor; eassumption.
Qed.
Lemma import_missing n w l x file s : distinct (w_input w) -> current w s = Some (LTok (TFun (FImport x file)) l) ->
  (forall m, ~ resolves (w_input w) file m) ->
  exec (S n) w (LTok (TFun (FImport x file)) l) s = Err (tb l (XE_NotFound file)).
Proof.
  intros D C R. cbn [exec t_inner exec_fn]. unfold with_current. rewrite C. cbn [t_loc]. unfold exec_import.
  destruct (get_at_path (w_input w) file) as [m|] eqn:G; [|reflexivity]. apply path_resolves in G; [|exact D]. now apply R in G.
Qed.
Lemma for_missing n w l f s : distinct (w_input w) -> current w s = Some (LTok (TFun (FFor f)) l) -> ff_type f <> SrcVar ->
  (forall m, ~ resolves (w_input w) (ff_src f) m) ->
  exec (S n) w (LTok (TFun (FFor f)) l) s = Err (tb l (XE_NotFound (ff_src f))).
Proof.
  intros D C T R. cbn [exec t_inner exec_fn]. unfold with_current. rewrite C. cbn [t_loc]. unfold for_values.
  assert (G : get_at_path (w_input w) (ff_src f) = None).
  { destruct (get_at_path (w_input w) (ff_src f)) as [m|] eqn:G; [|reflexivity]. apply path_resolves in G; [|exact D]. now apply R in G. }
  rewrite G. destruct (ff_type f); try reflexivity. contradiction.
Qed.

(** ** Union *)
Definition child_step (oc c : node) : node * outcome :=
  if is_dir c && is_dir oc then merge c oc else (c, Failed (E_Fs (FE_Conflict (n_source c) (n_source oc)))).
Fixpoint merge_list (ch och : list node) : list node * outcome :=
  match och with
  | [] => (ch, Done)
  | oc :: och' => match update_first oc (child_step oc) ch with (ch', Done) => merge_list ch' och' | (ch', o) => (ch', o) end
  end.
Lemma merge_dirs_eq n ch s m och t : merge (NDir n ch s) (NDir m och t) = let (ch', o) := merge_list ch och in (NDir n ch' s, o).
Proof. reflexivity. Qed.
Lemma merge_name a b : n_name (fst (merge a b)) = n_name a /\ is_dir (fst (merge a b)) = is_dir a.
Proof.
  destruct a, b; try (cbn; now split). rewrite merge_dirs_eq. destruct (merge_list children children0). now split.
Qed.
Lemma child_step_name oc c : n_name (fst (child_step oc c)) = n_name c.
Proof. unfold child_step. destruct (_ && _); [apply merge_name|reflexivity]. Qed.

(** The state of the entries after one step. *)
Lemma update_first_spec oc ch ch' o : NoDup (map n_name ch) -> update_first oc (child_step oc) ch = (ch', o) ->
  (forall k, k <> n_name oc -> find_child k ch' = find_child k ch) /\
  match find_child (n_name oc) ch with
  | None => o = Done /\ ch' = ch ++ [oc]
  | Some c => o = snd (child_step oc c) /\ map n_name ch' = map n_name ch /\ find_child (n_name oc) ch' = Some (fst (child_step oc c)) /\
      (forall x, In x ch' -> In x ch \/ x = fst (child_step oc c))
  end.
Proof.
  revert ch' o. induction ch as [|c ch IH]; intros ch' o ND E; cbn in E.
  - injection E as <- <-. split; [|now split]. intros k NE. unfold find_child. cbn.
    destruct (text_eqb (n_name oc) k) eqn:X; [|reflexivity]. apply text_eqb_eq in X. congruence.
  - unfold find_child. cbn [find]. destruct (text_eqb (n_name c) (n_name oc)) eqn:X.
    + pose proof (child_step_name oc c) as CN. destruct (child_step oc c) as [c' o'] eqn:CS. injection E as <- <-. cbn [fst snd] in *.
      apply text_eqb_eq in X. split.
      * intros k NE. cbn. rewrite CN. destruct (text_eqb (n_name c) k) eqn:Y; [|reflexivity]. apply text_eqb_eq in Y. congruence.
      * split; [reflexivity|]. cbn. rewrite CN, X, text_eqb_refl. repeat split. intros x [<-|H]; [now right|]. left. now right.
    + fold (update_first oc (child_step oc)) in E.
      destruct (update_first oc (child_step oc) ch) as [r o'] eqn:U. injection E as <- <-. inversion ND; subst.
      destruct (IH _ _ H2 eq_refl) as [A B]. split.
      * intros k NE. cbn. destruct (text_eqb (n_name c) k); [reflexivity|]. now apply A.
      * change (find (fun n => text_eqb (n_name n) (n_name oc)) ch) with (find_child (n_name oc) ch).
        destruct (find_child (n_name oc) ch) as [d|].
        -- destruct B as (B1 & B2 & B3 & B4). split; [exact B1|]. cbn. rewrite X, B2. repeat split; [exact B3|].
           intros x [<-|H]; [left; now left|]. destruct (B4 x H); [left; now right|now right].
        -- destruct B as [-> ->]. now split.
Qed.
Lemma update_first_nodup oc ch ch' o : NoDup (map n_name ch) -> update_first oc (child_step oc) ch = (ch', o) -> NoDup (map n_name ch').
Proof.
  intros ND U. pose proof (update_first_spec _ _ _ _ ND U) as [_ B]. destruct (find_child (n_name oc) ch) eqn:F.
  - destruct B as (_ & -> & _). exact ND.
  - destruct B as [_ ->]. apply find_child_none in F. rewrite map_app. cbn.
    rewrite <- (app_nil_r (map n_name ch)) in ND. apply NoDup_Add with (a := n_name oc) (l := map n_name ch); [|split; [now rewrite app_nil_r in ND|exact F]].
    rewrite <- (app_nil_r (map n_name ch)) at 1. apply Add_app.
Qed.
Lemma merge_list_done och : forall ch ch', NoDup (map n_name ch) -> NoDup (map n_name och) -> merge_list ch och = (ch', Done) ->
  NoDup (map n_name ch') /\
  (forall k, match find_child k ch, find_child k och with
   | None, y => find_child k ch' = y
   | Some x, None => find_child k ch' = Some x
   | Some x, Some y => is_dir x = true /\ is_dir y = true /\ exists z, find_child k ch' = Some z /\ merge x y = (z, Done)
   end).
Proof.
  induction och as [|oc och IH]; intros ch ch' ND NO E.
  - injection E as <-. split; [exact ND|]. intros k. cbn. now destruct (find_child k ch).
  - cbn [merge_list] in E. destruct (update_first oc (child_step oc) ch) as [r o] eqn:U. destruct o; try discriminate.
    pose proof (update_first_nodup _ _ _ _ ND U) as NR. inversion NO as [|? ? NI NO']; subst.
    destruct (IH _ _ NR NO' E) as [D K]. split; [exact D|]. intros k. specialize (K k).
    destruct (update_first_spec _ _ _ _ ND U) as [A B]. rewrite find_child_cons.
    destruct (text_eqb (n_name oc) k) eqn:X.
    + apply text_eqb_eq in X. subst k. apply find_child_none in NI. rewrite NI in K.
      destruct (find_child (n_name oc) ch) as [c|] eqn:F.
      * destruct B as (B1 & _ & B3 & _). rewrite B3 in K. unfold child_step in *. destruct (is_dir c), (is_dir oc); cbn [andb snd fst] in *; try discriminate.
        split; [reflexivity|]. split; [reflexivity|]. exists (fst (merge c oc)). split; [exact K|]. rewrite B1. now destruct (merge c oc).
      * destruct B as [_ ->]. assert (G : find_child (n_name oc) (ch ++ [oc]) = Some oc).
        { apply find_child_in; [exact NR|]. apply in_app_iff. right. now left. }
        now rewrite G in K.
    + apply text_eqb_neq in X. rewrite A in K by congruence. exact K.
Qed.
Lemma distinct_child n ch s c : distinct (NDir n ch s) -> In c ch -> distinct c.
Proof. intros D I. inversion D as [|? ? ? _ F]; subst. rewrite Forall_forall in F. now apply F. Qed.
Lemma merge_walk p : forall a b c, distinct a -> distinct b -> is_dir a = true -> is_dir b = true -> merge a b = (c, Done) ->
  match walk a p, walk b p with
  | None, y => walk c p = y
  | Some x, None => walk c p = Some x
  | Some x, Some y => is_dir x = true /\ is_dir y = true /\ exists z, walk c p = Some z /\ is_dir z = true
  end.
Proof.
  induction p as [|k p IH]; intros a b c Da Db A B M.
  - cbn [walk]. split; [exact A|]. split; [exact B|]. exists c. split; [reflexivity|]. pose proof (merge_name a b) as [_ H]. rewrite M in H. cbn in H. congruence.
  - destruct a as [|n ch s]; [discriminate|]. destruct b as [|m och t]; [discriminate|]. rewrite merge_dirs_eq in M.
    destruct (merge_list ch och) as [ch' o] eqn:ML. injection M as <- ->. cbn [walk n_children].
    inversion Da as [|? ? ? NA FA]; inversion Db as [|? ? ? NB FB]; subst. destruct (merge_list_done _ _ _ NA NB ML) as [_ K]. specialize (K k).
    destruct (find_child k ch) as [x|] eqn:Fx, (find_child k och) as [y|] eqn:Fy.
    + destruct K as (X & Y & z & -> & Mz). apply find_child_some in Fx, Fy. apply (IH x y z); try assumption.
      * now apply (distinct_child _ _ _ _ Da).
      * now apply (distinct_child _ _ _ _ Db).
    + rewrite K. now destruct (walk x p).
    + now rewrite K.
    + now rewrite K.
Qed.
Lemma merge_distinct b : forall a c, distinct a -> distinct b -> is_dir a = true -> is_dir b = true -> merge a b = (c, Done) -> distinct c.
Proof.
  induction b as [|name och src IH] using node_ind2; [discriminate|]. intros a c Da Db A _ M.
  destruct a as [|n ch s]; [discriminate|]. rewrite merge_dirs_eq in M. destruct (merge_list ch och) as [ch' o] eqn:ML. injection M as <- ->.
  inversion Da as [|? ? ? NA FA]; inversion Db as [|? ? ? NB FB]; subst. destruct (merge_list_done _ _ _ NA NB ML) as [D K].
  constructor; [exact D|]. apply Forall_forall. intros z I. specialize (K (n_name z)). rewrite (find_child_in _ _ D I) in K.
  destruct (find_child (n_name z) ch) as [x|] eqn:Fx, (find_child (n_name z) och) as [y|] eqn:Fy.
  - destruct K as (X & Y & z' & E & Mz). injection E as ->. apply find_child_some in Fx, Fy. rewrite Forall_forall in IH.
    apply (IH y (proj1 Fy) x z'); try assumption; [now apply (distinct_child _ _ _ _ Da)|now apply (distinct_child _ _ _ _ Db)].
  - injection K as <-. apply find_child_some in Fx. now apply (distinct_child _ _ _ _ Da).
  - injection K as <-. apply find_child_some in Fy. now apply (distinct_child _ _ _ _ Db).
  - discriminate.
Qed.
Lemma same_node_refl x : same_node x x.
Proof. destruct x; cbn; repeat split. Qed.
Lemma same_dirs x y : is_dir x = true -> is_dir y = true -> same_node x y.
Proof. now destruct x, y. Qed.
