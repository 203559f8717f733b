(** SettingsFacts.v -- what the settings of a manifest can change (C98). *)

From Coq Require Import String List NArith ZArith Bool Lia.
From Verif Require Import Text Utf8 Json Base Syntax Parse Tree Interp Build Disk Cli SpecScope SpecTree SpecDisk SpecSite SpecProject.
From Verif Require Import SiteFacts TextFacts TreeFacts PathFacts MergeFacts DiskFacts LoadFacts SaveFacts CliFacts SiteDisk.
From Verif Require Import SpecSettings.
Import ListNotations.

(** ** Building *)
Definition alike_nodes (x y : res error node) : Prop :=
  match x, y with Ok a, Ok b => bare a = bare b | Ok _, _ | _, Ok _ => False | Err a, Err b => a = b | Panic a, Panic b => a = b | OutOfFuel, OutOfFuel => True | _, _ => False end.
Lemma process_alike h i b m m' e name c pc src :
  alike_nodes (process_file (Processor h i b m) e name c pc src) (process_file (Processor h i b m') e name c pc src).
Proof.
  unfold process_file. match goal with |- alike_nodes (bind ?x _) (bind ?y _) => change y with x; generalize x end.
  intros [x|x|x|]; cbn [bind]; try reflexivity.
Qed.
Lemma map_alike {A} (f g : A -> res error node) l : Forall (fun a => alike_nodes (f a) (g a)) l ->
  match map_res f l, map_res g l with
  | Ok a, Ok b => map bare a = map bare b | Ok _, _ | _, Ok _ => False | Err a, Err b => a = b | Panic a, Panic b => a = b | OutOfFuel, OutOfFuel => True | _, _ => False
  end.
Proof.
  induction 1 as [|a l H F IH]; cbn [map_res]; [reflexivity|]. destruct (f a), (g a); cbn [alike_nodes bind] in *; try contradiction; try assumption.
  destruct (map_res f l), (map_res g l); cbn [bind map]; try contradiction; try assumption. now rewrite H, IH.
Qed.
Lemma node_alike h i b m m' n : forall e, alike_nodes (build_node (Processor h i b m) e n) (build_node (Processor h i b m') e n).
Proof.
  induction n as [name c pc meta src|name ch src IH] using node_ind2; intros e; cbn [build_node]; [apply process_alike|].
  pose proof (map_alike (build_node (Processor h i b m) (env_update e ch)) (build_node (Processor h i b m') (env_update e ch)) ch) as M.
  match type of M with ?P -> _ => assert (F : P) end. { revert IH. apply Forall_impl. intros a H. apply H. } specialize (M F).
  destruct (map_res _ ch), (map_res _ ch); cbn [bind alike_nodes bare]; try contradiction; try assumption. now rewrite M.
Qed.
Lemma preprocess_meta h i b m m' n : preprocess (Processor h i b m) n = preprocess (Processor h i b m') n.
Proof.
  induction n as [name c pc meta src|name ch src IH] using node_ind2; cbn [preprocess]; [destruct pc; reflexivity|].
  replace (map_res (preprocess (Processor h i b m')) ch) with (map_res (preprocess (Processor h i b m)) ch); [reflexivity|].
  induction IH as [|a l H F IHl]; cbn [map_res]; [reflexivity|]. now rewrite H, IHl.
Qed.

(** Two builders with different settings. *)
Record twins (cf cf' : config) (st st' : stuart) : Prop := Twins {
  tw_input : st_input st' = st_input st; tw_base : st_base st' = st_base st; tw_plugins : st_plugins st' = st_plugins st;
  tw_output : option_map bare (st_output st') = option_map bare (st_output st);
  tw_config : st_config st = cf; tw_config' : st_config st' = cf' }.
Lemma twins_configured cf cf' st : twins cf cf' (with_config cf st) (with_config cf' st).
Proof. now constructor. Qed.
Lemma build_twins cf cf' h osenv mode d st st' : twins cf cf' st st' ->
  twins cf cf' (fst (build h osenv mode d st)) (fst (build h osenv mode d st')) /\ snd (build h osenv mode d st') = snd (build h osenv mode d st).
Proof.
  intros [I B P O C C']. unfold build. rewrite P. destruct (node_new _ _ _ _ _ _) as [input|e|p|]; cbn [fst snd]; try (split; [now constructor|reflexivity]).
  set (base := Some (base_frame (build_vars osenv mode))).
  rewrite (preprocess_meta h (Some input) base (cf_meta (st_config st')) (cf_meta (st_config st))).
  destruct (preprocess _ input) as [input'|e|p|] eqn:PR; cbn [fst snd]; try (split; [now constructor|reflexivity]).
  unfold build_tree. fold base. rewrite (preprocess_meta h (Some input) base (cf_meta (st_config st')) (cf_meta (st_config st))), PR. cbn [bind].
  destruct (n_children input') as [ch|]; cbn [bind fst snd]; [|split; [now constructor|reflexivity]].
  pose proof (node_alike h (Some input') base (cf_meta (st_config st)) (cf_meta (st_config st')) input' (env_update (Env (build_vars osenv mode) None None) ch)) as A.
  destruct (build_node _ _ input') as [a|a|a|], (build_node _ _ input') as [a'|a'|a'|]; cbn [bind fst snd alike_nodes] in *; try contradiction;
    (split; [constructor; cbn; congruence|congruence]).
Qed.
Lemma build_configured cf cf' h osenv mode d st : cf_meta cf' = cf_meta cf ->
  build h osenv mode d (with_config cf' st) = (with_config cf' (fst (build h osenv mode d (with_config cf st))), snd (build h osenv mode d (with_config cf st))).
Proof.
  intros M. unfold build. cbn [with_config st_plugins st_config st_output]. rewrite M.
  destruct (node_new _ _ _ _ _ _) as [input|e|p|]; try reflexivity.
  destruct (preprocess _ input) as [input'|e|p|]; try reflexivity.
  destruct (build_tree _ _ _ _) as [[i o]|e|p|]; reflexivity.
Qed.

(** ** Merging *)
Lemma merge_bare b : forall a, merge (bare a) (bare b) = (bare (fst (merge a b)), snd (merge a b)).
Proof.
  assert (B1 : forall n, is_dir (bare n) = is_dir n) by (intros []; reflexivity).
  assert (B2 : forall n, n_name (bare n) = n_name n) by (intros []; reflexivity).
  assert (B3 : forall n, n_source (bare n) = n_source n) by (intros []; reflexivity).
  induction b as [name c pc meta src|name och src IH] using node_ind2; intros [n0 c0 p0 m0 s0|n0 ch0 s0]; try reflexivity.
  cbn [bare]. rewrite !merge_dirs_eq.
  assert (G : forall ch, merge_list (map bare ch) (map bare och) = (map bare (fst (merge_list ch och)), snd (merge_list ch och))).
  { induction IH as [|oc och H F IHl]; intros ch; [reflexivity|]. cbn [map merge_list].
    assert (U : update_first (bare oc) (child_step (bare oc)) (map bare ch) = (map bare (fst (update_first oc (child_step oc) ch)), snd (update_first oc (child_step oc) ch))).
    { assert (CS : forall c, child_step (bare oc) (bare c) = (bare (fst (child_step oc c)), snd (child_step oc c))).
      { intros c. unfold child_step. rewrite !B1, !B3. destruct (is_dir c && is_dir oc); [apply H|reflexivity]. }
      induction ch as [|c ch IHc]; cbn [update_first map]; [reflexivity|]. rewrite !B2. destruct (text_eqb (n_name c) (n_name oc)).
      - rewrite CS. destruct (child_step oc c) as [c' o]. reflexivity.
      - rewrite IHc. destruct (update_first oc (child_step oc) ch) as [r o]. reflexivity. }
    rewrite U. destruct (update_first oc (child_step oc) ch) as [ch' []]; cbn [fst snd]; [apply IHl|reflexivity|reflexivity]. }
  rewrite G. destruct (merge_list ch0 och) as [ch' o]. reflexivity.
Qed.
Lemma merge_output_twins cf cf' t st st' : twins cf cf' st st' ->
  twins cf cf' (fst (merge_output t st)) (fst (merge_output t st')) /\ snd (merge_output t st') = snd (merge_output t st).
Proof.
  intros [I B P O C C']. unfold merge_output. destruct (st_output st) as [a|] eqn:E0, (st_output st') as [a'|] eqn:E; cbn [option_map] in O; try discriminate.
  - injection O as O. pose proof (merge_bare t a) as M. pose proof (merge_bare t a') as M'. rewrite O, M in M'. injection M' as M1 M2.
    destruct (merge a t) as [x o], (merge a' t) as [x' o']. cbn [fst snd] in *. subst o'. split; [constructor; cbn; congruence|reflexivity].
  - split; [constructor; cbn; try assumption; rewrite ?E0, ?E; reflexivity|reflexivity].
Qed.
Lemma merge_dirs_twins cf cf' h dir d names : forall st st', twins cf cf' st st' ->
  twins cf cf' (fst (merge_dirs h dir names d st)) (fst (merge_dirs h dir names d st')) /\ snd (merge_dirs h dir names d st') = snd (merge_dirs h dir names d st).
Proof.
  induction names as [|n names IH]; intros st st' T; cbn [merge_dirs]; [now split|].
  destruct (lookup (dir ++ [n]) d) as [e|]; [|now apply IH]. destruct (node_new _ _ _ _ _ _) as [t| | |]; cbn [fst snd]; try now split.
  destruct (merge_output_twins cf cf' t st st' T) as [T1 E]. destruct (merge_output t st) as [s r], (merge_output t st') as [s' r']. cbn [fst snd] in *. subst r'.
  destruct r; try now split. now apply IH.
Qed.
Lemma merged_twins m cf cf' c d : let b := build_and_merge m (configured cf c) d in let b' := build_and_merge m (configured cf' c) d in
  twins cf cf' (fst b) (fst b') /\ snd b' = snd b.
Proof.
  cbv zeta. unfold build_and_merge. cbn [configured cx_mode cx_dir cx_stuart].
  set (s := source_at _ d). destruct (build_twins cf cf' (m_host m) (m_osenv m) (cx_mode c) s _ _ (twins_configured cf cf' (cx_stuart c))) as [T E].
  destruct (build _ _ _ _ (with_config cf _)) as [st r], (build _ _ _ _ (with_config cf' _)) as [st' r']. cbn [fst snd] in *. subst r'.
  destruct r; try now split. now apply merge_dirs_twins.
Qed.
Lemma merge_dirs_configured cf h dir d names : forall st,
  merge_dirs h dir names d (with_config cf st) = (with_config cf (fst (merge_dirs h dir names d st)), snd (merge_dirs h dir names d st)).
Proof.
  induction names as [|n names IH]; intros st; cbn [merge_dirs]; [reflexivity|]. destruct (lookup (dir ++ [n]) d) as [e|]; [|apply IH].
  destruct (node_new _ _ _ _ _ _) as [t| | |]; try reflexivity. unfold merge_output. cbn [with_config st_output]. destruct (st_output st) as [o|]; [|reflexivity].
  destruct (merge o t) as [o' []]; [|reflexivity|reflexivity]. exact (IH (Stuart (st_input st) (Some o') (st_config st) (st_base st) (st_plugins st))).
Qed.
Lemma merged_configured m cf cf' c d : cf_meta cf' = cf_meta cf ->
  build_and_merge m (configured cf' c) d = (with_config cf' (fst (build_and_merge m (configured cf c) d)), snd (build_and_merge m (configured cf c) d)).
Proof.
  intros M. unfold build_and_merge. cbn [configured cx_mode cx_dir cx_stuart]. rewrite (build_configured cf cf') by exact M.
  destruct (build _ _ _ _ (with_config cf _)) as [st r] eqn:B. cbn [fst snd]. destruct r; try reflexivity. apply merge_dirs_configured.
Qed.

(** ** Saving *)
Lemma save_recur_bare cf n : forall p, save_recur cf p (bare n) = save_recur cf p n.
Proof.
  induction n as [name b pc meta src|name ch src IH] using node_ind2; intros p; [reflexivity|]. cbn [bare save_recur]. f_equal.
  rewrite flat_map_concat_map, map_map, <- flat_map_concat_map. induction IH as [|c l H F IHl]; cbn [flat_map]; [reflexivity|]. now rewrite H, IHl.
Qed.
Lemma save_bare f st st' p d : option_map bare (st_output st') = option_map bare (st_output st) -> cf_strip (st_config st') = cf_strip (st_config st) -> cf_data (st_config st') = cf_data (st_config st) ->
  save f st' p d = save f st p d.
Proof.
  intros O S D. assert (R : forall cf cf' q n, cf_strip cf' = cf_strip cf -> cf_data cf' = cf_data cf -> save_recur cf' q n = save_recur cf q n).
  { clear. intros cf cf' q n S D. revert q. induction n as [name b pc meta src|name ch src IH] using node_ind2; intros q; cbn [save_recur]; [now rewrite S, D|]. f_equal.
    induction IH as [|c l H F IHl]; cbn [flat_map]; [reflexivity|]. now rewrite H, IHl. }
  assert (SO : forall cf cf' n, cf_strip cf' = cf_strip cf -> cf_data cf' = cf_data cf -> save_ops cf' p (bare n) = save_ops cf p n).
  { intros cf cf' [|name ch src] S' D'; [reflexivity|]. cbn [bare save_ops]. do 3 f_equal. induction ch as [|c ch IH]; [reflexivity|]. cbn [map flat_map]. now rewrite save_recur_bare, (R cf cf'), IH. }
  unfold save. destruct (st_output st) as [a|], (st_output st') as [a'|]; cbn [option_map] in O; try discriminate; [|reflexivity]. injection O as O.
  rewrite <- (SO (st_config st') (st_config st') a' eq_refl eq_refl), O, (SO (st_config st) (st_config st') a S D). reflexivity.
Qed.
Lemma idle_run m l d : (forall n d, In n l -> m_script m n d = (d, ScriptOk)) -> run_scripts (m_script m) l d = (d, None).
Proof.
  induction l as [|n l IH]; intros H; [reflexivity|]. cbn [run_scripts]. rewrite (H n d (or_introl eq_refl)). apply IH. intros k e I. apply H. now right.
Qed.

(** ** Name and author *)
Lemma titled_leaves m f name author cf c d : cf_meta cf = false ->
  leaves m f (configured (titled name author cf) c) d = leaves m f (configured cf c) d.
Proof.
  intros M. unfold leaves, cli_build. cbn [configured cx_pre cx_post cx_dir cx_output].
  destruct (run_scripts _ (cx_pre c) d) as [d1 [e|]]; [reflexivity|].
  rewrite (merged_configured m cf (titled name author cf) c d1) by reflexivity. destruct (build_and_merge m (configured cf c) d1) as [st r] eqn:B. cbn [fst snd].
  destruct r as [u| | |]; try reflexivity.
  assert (Cf : st_config st = cf). { destruct u. destruct (merged_output _ _ _ _ B) as (out & _ & _ & E & _). exact E. }
  rewrite (save_bare (fl_save f) st (with_config (titled name author cf) st)) by (cbn; rewrite ?Cf; reflexivity).
  destruct (save _ st _ _) as [d3 r]. destruct r as [u3| | |]; try reflexivity. cbn [with_config st_config titled cf_meta]. rewrite Cf, M.
  destruct (run_scripts _ (cx_post c) d3) as [d5 [e|]]; reflexivity.
Qed.
Lemma run_one f o o' d : op_path o' = op_path o -> (run_op o d = None <-> run_op o' d = None) ->
  snd (run_ops f [o'] d) = snd (run_ops f [o] d) /\
  ((fst (run_ops f [o'] d) = fst (run_ops f [o] d)) \/ exists d1 d2, run_op o d = Some d1 /\ run_op o' d = Some d2 /\ fst (run_ops f [o] d) = d1 /\ fst (run_ops f [o'] d) = d2).
Proof.
  intros P E. cbn [run_ops]. destruct f as [[[|k] junk]|]; [rewrite P; cbn; split; [reflexivity|now left]| |];
    (destruct (run_op o d) as [d1|] eqn:R, (run_op o' d) as [d2|] eqn:R'; try (exfalso; destruct E as [E1 E2]; first [discriminate (E1 eq_refl)|discriminate (E2 eq_refl)]);
     cbn; (split; [reflexivity|]); [right; now exists d1, d2|now left]).
Qed.
Lemma written_other f p b b' d : let r := run_ops f [OWrite p b] d in let r' := run_ops f [OWrite p b'] d in
  snd r' = snd r /\ forall q, q <> p -> what q (fst r') = what q (fst r).
Proof.
  cbv zeta. destruct (run_one f (OWrite p b) (OWrite p b') d eq_refl) as [E [H|(d1 & d2 & R & R' & -> & ->)]].
  - cbn [run_op]. unfold write_file. destruct (lookup p d) as [[]|]; try tauto; [split; discriminate|]. destruct (is_edir _); [split; discriminate|tauto].
  - split; [exact E|]. now rewrite H.
  - split; [exact E|]. intros q N. apply write_effect in R, R'. destruct R as [_ R], R' as [_ R']. rewrite R, R'. destruct (path_eq p q) as [E0|_]; [now subst q|reflexivity].
Qed.
Lemma titled_meta m f name author cf c d : idle_after m c ->
  let r := leaves m f (configured cf c) d in let r' := leaves m f (configured (titled name author cf) c) d in
  snd r' = snd r /\ forall q, q <> metadata_file c -> what q (fst r') = what q (fst r).
Proof.
  intros IA. cbv zeta. destruct (cf_meta cf) eqn:M; [|rewrite titled_leaves by exact M; split; reflexivity]. unfold leaves. cbn [fst snd]. unfold cli_build. cbn [configured cx_pre cx_post cx_dir cx_output].
  destruct (run_scripts _ (cx_pre c) d) as [d1 [e|]]; [now split|].
  rewrite (merged_configured m cf (titled name author cf) c d1) by reflexivity. destruct (build_and_merge m (configured cf c) d1) as [st r] eqn:B. cbn [fst snd].
  destruct r as [u| | |]; try now split.
  assert (Cf : st_config st = cf). { destruct u. destruct (merged_output _ _ _ _ B) as (out & _ & _ & E & _). exact E. }
  rewrite (save_bare (fl_save f) st (with_config (titled name author cf) st)) by (cbn; rewrite ?Cf; reflexivity).
  destruct (save _ st _ _) as [d3 r]. destruct r as [u3| | |]; try now split. cbn [with_config st_config titled cf_meta]. rewrite Cf, M.
  unfold save_metadata, metadata_value. cbn [with_config st_config titled cf_meta st_output cf_name cf_author]. rewrite Cf, M. cbn [negb].
  destruct (st_output st) as [out|]; [|now split]. destruct (metadata_recur true out) as [v| | |]; cbn [bind]; try now split.
  set (b' := m_ser m (VObj [(lit "name", VStr name); (lit "author", match author with Some a => VStr a | None => VNull end); (lit "data", v)])).
  match goal with |- context [run_ops ?a [OWrite ?p (m_ser m ?v0)] d3] => set (b := m_ser m v0); pose proof (written_other a p b b' d3) as W end. cbv zeta in W. destruct W as [W1 W2].
  destruct (run_ops _ [OWrite _ b] d3) as [d4 ok], (run_ops _ [OWrite _ b'] d3) as [d4' ok']. cbn [fst snd] in *. subst ok'.
  destruct ok; cbn [fst snd of_res]; [|now split]. rewrite !idle_run by exact IA. now split.
Qed.

(** ** Metadata *)
Lemma metadata_leaves m f cf c d : idle_after m c ->
  let r := leaves m f (configured (with_metadata false cf) c) d in let r' := leaves m f (configured (with_metadata true cf) c) d in
  (snd r <> COk -> r' = r) /\ (forall q, ~ above (metadata_file c) q -> what q (fst r') = what q (fst r)).
Proof.
  intros IA. cbv zeta. unfold leaves. cbn [fst snd]. unfold cli_build. cbn [configured cx_pre cx_post cx_dir cx_output].
  destruct (run_scripts _ (cx_pre c) d) as [d1 [e|]]; [now split|].
  destruct (merged_twins m (with_metadata false cf) (with_metadata true cf) c d1) as [T E].
  destruct (build_and_merge m (configured (with_metadata false cf) c) d1) as [st r], (build_and_merge m (configured (with_metadata true cf) c) d1) as [st' r']. cbn [fst snd] in *. subst r'.
  destruct r as [u| | |]; try now split. destruct T as [_ _ _ O C C'].
  rewrite (save_bare (fl_save f) st st') by (rewrite ?C, ?C'; first [exact O|reflexivity]). destruct (save _ st _ _) as [d3 r]. destruct r as [u3| | |]; try now split.
  rewrite C, C'. cbn [with_metadata cf_meta]. rewrite !idle_run by exact IA.
  pose proof (save_metadata_outside (m_ser m) (fl_meta f) st' (cx_dir c ++ [lit "metadata.json"]) d3) as W.
  destruct (save_metadata _ _ st' _ d3) as [d4 r4]. cbn [fst snd] in *. split; [intros N; contradiction|]. intros q N. specialize (W q N). destruct r4 as [u4| | |]; cbn [fst snd]; try exact W.
  now rewrite !idle_run by exact IA.
Qed.

(** ** Static files and pages do not share a place *)
Inductive dirs_once : node -> Prop :=
| do_file name b pc meta src : dirs_once (NFile name b pc meta src)
| do_dir name ch src : NoDup (map n_name (filter is_dir ch)) -> Forall dirs_once ch -> dirs_once (NDir name ch src).
Lemma filter_once (l : list (text * ent)) ch : Forall2 (fun ke n => is_dir n = true -> n_name n = fst ke) l ch -> NoDup (map fst l) -> NoDup (map n_name (filter is_dir ch)).
Proof.
  induction 1 as [|[k e] n l ch H F IH]; [constructor|]. cbn [map fst] in *. intros ND. inversion ND as [|? ? N1 N2]; subst. cbn [filter].
  destruct (is_dir n) eqn:D; [|now apply IH]. cbn [map]. rewrite (H eq_refl). constructor; [|now apply IH].
  intros I. apply N1. apply in_map_iff in I. destruct I as (x & E & I). apply filter_In in I. destruct I as [I Dx].
  destruct (Forall2_in_r _ _ _ _ F I) as (ke & Ik & Hk). apply in_map_iff. exists ke. split; [rewrite <- E; symmetry; now apply Hk|exact Ik].
Qed.
Lemma loaded_once e : forall name n, loaded name e n -> ent_distinct e -> dirs_once n.
Proof.
  induction e as [b| |l IH] using ent_ind2; intros name n L D; inversion L as [|? ? ch ? F]; subst; [constructor|]. inversion D as [| |? ND FD]; subst.
  constructor.
  - apply (filter_once l); [|exact ND]. revert F. clear. induction 1 as [|[k e] y l ch H F IHF]; constructor; [|exact IHF]. intros _. now apply loaded_name in H.
  - apply Forall_forall. intros x I. destruct (Forall2_in_r _ _ _ _ F I) as ([k e] & Ik & H). rewrite Forall_forall in IH, FD. eapply (IH _ Ik); [exact H|]. now apply (FD _ Ik).
Qed.
Lemma built_once ps e : forall name n, built_from ps name e n -> ent_distinct e -> dirs_once n.
Proof.
  induction e as [b| |l IH] using ent_ind2; intros name n L D; [inversion L; constructor|inversion L|]. inversion L as [? ? ch ? F| | | |]; subst. inversion D as [| |? ND FD]; subst.
  constructor.
  - apply (filter_once l); [|exact ND]. revert F. clear. induction 1 as [|[k e] y l ch H F IHF]; constructor; [|exact IHF]. cbn [fst snd] in *. intros Dy. inversion H; subst; try discriminate. reflexivity.
  - apply Forall_forall. intros x I. destruct (Forall2_in_r _ _ _ _ F I) as ([k e] & Ik & H). rewrite Forall_forall in IH, FD. eapply (IH _ Ik); [exact H|]. now apply (FD _ Ik).
Qed.
Lemma update_once oc ch ch' : update_first oc (child_step oc) ch = (ch', Done) -> dirs_once oc ->
  (forall a c, merge a oc = (c, Done) -> dirs_once a -> dirs_once c) ->
  NoDup (map n_name (filter is_dir ch)) -> Forall dirs_once ch ->
  NoDup (map n_name (filter is_dir ch')) /\ Forall dirs_once ch' /\
  forall n, In n (map n_name (filter is_dir ch')) -> In n (map n_name (filter is_dir ch)) \/ n = n_name oc /\ ~ In n (map n_name ch).
Proof.
  intros U Doc M. revert ch' U. induction ch as [|c ch IH]; intros ch' U ND F; cbn in U.
  - injection U as <-. split; [|split; [now constructor|]].
    + cbn [filter]. destruct (is_dir oc); [|constructor]. constructor; [intros []|constructor].
    + cbn [filter]. destruct (is_dir oc); [|intros n []]. intros n [<-|[]]. right. split; [reflexivity|intros []].
  - inversion F as [|? ? Fc Fch]; subst. destruct (text_eqb (n_name c) (n_name oc)) eqn:X.
    + pose proof (child_step_name oc c) as CN. destruct (child_step oc c) as [c' o] eqn:S. injection U as <- ->. cbn [fst] in CN. unfold child_step in S.
      destruct (is_dir c && is_dir oc) eqn:D; [|discriminate]. apply andb_true_iff in D. destruct D as [D1 D2].
      pose proof (merge_name c oc) as [_ MD]. rewrite S in MD. cbn [fst] in MD. cbn [filter] in *. rewrite MD, D1 in *. cbn [map] in *. rewrite CN. split; [exact ND|].
      split; [constructor; [exact (M _ _ S Fc)|exact Fch]|]. intros n I. now left.
    + fold (update_first oc (child_step oc)) in U. destruct (update_first oc (child_step oc) ch) as [r o] eqn:U'. injection U as <- ->.
      cbn [filter] in *. destruct (is_dir c) eqn:D.
      * cbn [map] in ND. inversion ND as [|? ? N1 N2]; subst. destruct (IH r eq_refl N2 Fch) as (A & B & C). split; [|split; [now constructor|]].
        -- cbn [map]. constructor; [|exact A]. intros I. destruct (C _ I) as [I'|[I' _]]; [now apply N1|]. apply text_eqb_neq in X. contradiction.
        -- cbn [map]. intros n [<-|I]; [left; now left|]. destruct (C _ I) as [I'|[I1 I2]]; [left; now right|]. right. split; [exact I1|]. intros [E|E]; [|contradiction].
           apply text_eqb_neq in X. congruence.
      * destruct (IH r eq_refl ND Fch) as (A & B & C). split; [exact A|]. split; [now constructor|]. intros n I. destruct (C _ I) as [I'|[I1 I2]]; [now left|]. right. split; [exact I1|].
        intros [E|E]; [|contradiction]. apply text_eqb_neq in X. congruence.
Qed.
Lemma merge_once b : dirs_once b -> forall a c, merge a b = (c, Done) -> dirs_once a -> dirs_once c.
Proof.
  induction b as [name b pc meta src|name och src IH] using node_ind2; intros Db a c M Da; destruct a as [|n ch s]; try discriminate.
  rewrite merge_dirs_eq in M. destruct (merge_list ch och) as [ch' o] eqn:E. injection M as <- ->. inversion Da as [|? ? ? ND F]; subst. inversion Db as [|? ? ? _ FB]; subst. clear Da Db.
  revert ch ch' E ND F FB. induction IH as [|oc och H _ IHo]; intros ch ch' E ND F FB; cbn [merge_list] in E.
  - injection E as <-. now constructor.
  - inversion FB as [|? ? Foc FB']; subst. destruct (update_first oc (child_step oc) ch) as [r o] eqn:U. destruct o; try discriminate.
    destruct (update_once oc ch r U Foc (H Foc) ND F) as (A & B & _). exact (IHo r ch' E A B FB').
Qed.
(** A file is not merged into a place that is taken. *)
Lemma update_taken oc ch ch' c : update_first oc (child_step oc) ch = (ch', Done) -> In c ch -> n_name c = n_name oc -> is_dir oc = true.
Proof.
  revert ch'. induction ch as [|x ch IH]; intros ch' U I N; [destruct I|]. cbn in U. destruct (text_eqb (n_name x) (n_name oc)) eqn:X.
  - unfold child_step in U. destruct (is_dir x && is_dir oc) eqn:D; [now apply andb_true_iff in D|discriminate].
  - fold (update_first oc (child_step oc)) in U. destruct (update_first oc (child_step oc) ch) as [r o] eqn:U'. injection U as <- ->. destruct I as [->|I]; [|now apply (IH r)].
    apply text_eqb_neq in X. contradiction.
Qed.
Lemma update_into oc ch ch' c : update_first oc (child_step oc) ch = (ch', Done) -> In c ch -> n_name c = n_name oc -> is_dir c = true ->
  NoDup (map n_name (filter is_dir ch)) -> exists c', merge c oc = (c', Done).
Proof.
  revert ch'. induction ch as [|x ch IH]; intros ch' U I N D ND; [destruct I|]. cbn in U. destruct (text_eqb (n_name x) (n_name oc)) eqn:X.
  - apply text_eqb_eq in X. unfold child_step in U. destruct (is_dir x && is_dir oc) eqn:Dx; [|discriminate]. apply andb_true_iff in Dx. destruct Dx as [Dx _].
    destruct I as [->|I]; [destruct (merge c oc) as [c' o]; injection U as _ ->; now exists c'|]. exfalso. cbn [filter] in ND. rewrite Dx in ND. cbn [map] in ND.
    inversion ND as [|? ? N1 _]; subst. apply N1. apply in_map_iff. exists c. split; [congruence|]. now apply filter_In.
  - fold (update_first oc (child_step oc)) in U. destruct (update_first oc (child_step oc) ch) as [r o] eqn:U'. injection U as <- ->. apply text_eqb_neq in X.
    destruct I as [->|I]; [contradiction|]. apply (IH r eq_refl I N D). cbn [filter] in ND. destruct (is_dir x); [now inversion ND|exact ND].
Qed.
Lemma merge_free b : dirs_once b -> forall a c p na nb, merge a b = (c, Done) -> dirs_once a -> at_names a p na -> at_names b p nb -> is_dir nb = false -> p <> [] -> is_dir na = false -> False.
Proof.
  induction b as [name b pc meta src|name och src IH] using node_ind2; intros Db a c p na nb M Da A B Fb Np Fa; destruct a as [|n ch s]; try discriminate.
  rewrite merge_dirs_eq in M. destruct (merge_list ch och) as [ch' o] eqn:E. injection M as _ ->. inversion Da as [|? ? ? ND F]; subst. inversion Db as [|? ? ? _ FB]; subst. clear Da Db.
  inversion A as [|? ? ? ca ks ? Ia A']; subst; [contradiction|]. inversion B as [|? ? ? cb ks' ? Ib B' Q1 Q2]; subst.
  match goal with H : n_name cb = n_name ca |- _ => rename H into E1 end.
  clear A B Np. revert ch ch' E ND F FB ca Ia na Fa A' cb Ib B' E1. induction IH as [|oc och H IHall IHo]; intros ch ch' E ND F FB ca Ia na Fa A' cb Ib B' E1; [destruct Ib|]. cbn [merge_list] in E.
  inversion FB as [|? ? Foc FB']; subst. destruct (update_first oc (child_step oc) ch) as [r o] eqn:U. destruct o; try discriminate.
  destruct Ib as [->|Ib].
  - pose proof (update_taken cb ch r ca U Ia ltac:(congruence)) as Dcb.
    assert (Nk : ks <> []). { intros ->. inversion B'; subst. congruence. }
    assert (Dca : is_dir ca = true). { destruct ca; [|reflexivity]. inversion A'; subst. contradiction. }
    destruct (update_into cb ch r ca U Ia ltac:(congruence) Dca ND) as [c' M]. rewrite Forall_forall in F. exact (H Foc _ _ _ _ _ M (F _ Ia) A' B' Fb Nk Fa).
  - destruct (update_once oc ch r U Foc (merge_once oc Foc) ND F) as (A1 & B1 & _).
    destruct (update_first_good oc ch (fun a c M => merge_all_good oc a c M) r U) as (K & _ & _). rewrite Forall_forall in K. destruct (K ca Ia) as (ca' & Ia' & Na & Ka).
    destruct (Ka _ _ A') as (y & Ay & Sy). 
    assert (Fy : is_dir y = false) by (destruct y, na; try discriminate; try contradiction; reflexivity).
    exact (IHo r ch' E A1 B1 FB' ca' Ia' y Fy Ay cb Ib B' ltac:(congruence)).
Qed.

(** The files of the merged tree: pages, and static files where those are. *)
Lemma ent_lookup e ks x : ent_at e ks x -> ent_distinct e -> lookup ks e = Some x.
Proof.
  induction 1 as [e|l k e ks x I A IH]; intros D; [reflexivity|]. inversion D as [| |? ND FD]; subst. cbn [lookup]. rewrite (in_assoc k e l ND I). apply IH.
  rewrite Forall_forall in FD. exact (FD _ I).
Qed.
Lemma merge_dirs_files h dir d : ent_distinct d -> forall names st st' out0, st_output st = Some out0 -> merge_dirs h dir names d st = (st', Ok tt) -> dirs_once out0 -> is_dir out0 = true ->
  exists out, st_output st' = Some out /\ is_dir out = true /\ forall ks k b pc meta src, ks <> [] -> at_names out ks (NFile k b pc meta src) ->
    (at_names out0 ks (NFile k b pc meta src) /\ forall n b', In n names -> lookup (dir ++ n :: ks) d <> Some (EFile b')) \/
    (pc = PIgnored /\ exists n b', In n names /\ lookup (dir ++ n :: ks) d = Some (EFile b')).
Proof.
  intros Dd names. induction names as [|n names IH]; intros st st' out0 O M D0 I0; cbn [merge_dirs] in M.
  - injection M as <-. exists out0. split; [exact O|]. split; [exact I0|]. intros ks k b pc meta src _ A. left. split; [exact A|]. intros n b' [].
  - destruct (lookup (dir ++ [n]) d) as [e|] eqn:L.
    + unfold node_new in M. destruct e as [|l|]; try discriminate. destruct (create_from h [] false (dir ++ [n]) n (EDir l)) as [t| | |] eqn:C; try discriminate.
      unfold merge_output in M. rewrite O in M. destruct (merge out0 t) as [out1 o] eqn:MG. destruct o; try discriminate.
      assert (De : ent_distinct (EDir l)) by (eapply SiteDisk.lookup_distinct; eassumption).
      assert (Dt : dirs_once t) by (eapply loaded_once; [eapply create_loaded; exact C|exact De]).
      assert (D1 : dirs_once out1) by exact (merge_once t Dt _ _ MG D0).
      assert (I1 : is_dir out1 = true) by (pose proof (merge_name out0 t) as [_ N]; rewrite MG in N; cbn [fst] in N; congruence).
      assert (IH' := fun X => IH _ _ out1 X M D1 I1). destruct (IH' eq_refl) as (out & O' & I' & H). exists out. split; [exact O'|]. split; [exact I'|].
      intros ks k b pc meta src N A. destruct (H ks k b pc meta src N A) as [[A1 NN]|(-> & n' & b' & In' & L')]; [|right; split; [reflexivity|]; exists n', b'; split; [now right|exact L']].
      assert (LK : forall b', lookup (dir ++ n :: ks) d = Some (EFile b') -> exists k' src', at_names t ks (NFile k' b' PIgnored None src')).
      { intros b' L'. replace (dir ++ n :: ks) with ((dir ++ [n]) ++ ks) in L' by (now rewrite <- app_assoc). rewrite lookup_app, L in L'. exact (static_node _ _ _ _ _ _ _ C L'). }
      destruct (proj1 (merge_any_union _ _ _ MG) _ _ A1) as (y & [Y|Y] & Sm).
      * destruct y as [k2 b2 pc2 meta2 src2|]; [|destruct Sm]. destruct Sm as (<- & <- & <- & <- & <-). left. split; [exact Y|]. intros n' b' [<-|In']; [|now apply NN].
        intros L'. destruct (LK b' L') as (k' & src' & At). exact (merge_free t Dt _ _ _ _ _ MG D0 Y At eq_refl N eq_refl).
      * pose proof (static_only _ _ _ _ _ C _ _ Y) as Q. destruct y as [k2 b2 pc2 meta2 src2|]; [|destruct Sm]. destruct Sm as (<- & <- & <- & <- & <-). destruct Q as (Q & -> & _).
        right. split; [reflexivity|]. exists n, b. split; [now left|]. replace (dir ++ n :: ks) with ((dir ++ [n]) ++ ks) by (now rewrite <- app_assoc). rewrite lookup_app, L. now apply ent_lookup.
    + destruct (IH st st' out0 O M D0 I0) as (out & O' & I' & H). exists out. split; [exact O'|]. split; [exact I'|]. intros ks k b pc meta src N A.
      destruct (H ks k b pc meta src N A) as [[A1 NN]|(-> & n' & b' & In' & L')]; [|right; split; [reflexivity|]; exists n', b'; split; [now right|exact L']].
      left. split; [exact A1|]. intros n' b' [<-|In']; [|now apply NN]. replace (dir ++ n :: ks) with ((dir ++ [n]) ++ ks) by (now rewrite <- app_assoc). rewrite lookup_app, L. discriminate.
Qed.
Lemma built_pages h osenv mode d st out : snd (build h osenv mode d st) = Ok tt -> st_output (fst (build h osenv mode d st)) = Some out ->
  forall ks k b pc meta src, at_names out ks (NFile k b pc meta src) -> pc = PNone.
Proof.
  unfold build. destruct (node_new _ _ _ _ _ _) as [input| | |]; try discriminate. destruct (preprocess _ input) as [input'| | |] eqn:P; try discriminate.
  destruct (build_tree _ _ _ _) as [[i o]| | |] eqn:T; try discriminate. intros _ O. cbn in O. injection O as <-.
  unfold build_tree in T. rewrite P in T. cbn [bind] in T. destruct (n_children input'); [|discriminate].
  destruct (build_node _ _ input') as [x| | |] eqn:B; try discriminate. cbn [bind] in T. injection T as <- <-.
  revert B. match goal with |- build_node _ ?e _ = _ -> _ => generalize e end. revert x. generalize (Processor h (Some input') (Some (base_frame (build_vars osenv mode))) (cf_meta (st_config st))). clear.
  intros pr. induction input' as [name b0 pc0 meta0 src0|name ch src0 IH] using node_ind2; intros x e B ks k b pc meta src A; cbn [build_node] in B.
  - unfold process_file in B. match type of B with bind ?z _ = _ => destruct z; cbn [bind] in B; try discriminate end. injection B as <-. now inversion A.
  - destruct (map_res _ ch) as [ch'| | |] eqn:M; try discriminate. cbn [bind] in B. injection B as <-. apply map_res_ok in M. inversion A as [|? ? ? c ks' ? Ic A']; subst.
    destruct (Forall2_in_r _ _ _ _ M Ic) as (y & Iy & By). rewrite Forall_forall in IH. exact (IH y Iy c _ By ks' k b pc meta src A').
Qed.
Lemma merged_files m c d st out : build_and_merge m c d = (st, Ok tt) -> ent_distinct d -> st_output st = Some out ->
  forall ks k b pc meta src, ks <> [] -> at_names out ks (NFile k b pc meta src) -> (pc = PNone /\ ~ copied c d ks) \/ (pc = PIgnored /\ copied c d ks).
Proof.
  unfold build_and_merge. destruct (build _ _ _ _ _) as [st1 r] eqn:B. destruct r as [u| | |]; try discriminate. intros M Dd O.
  assert (S1 : snd (build (m_host m) (m_osenv m) (cx_mode c) (source_at (cx_dir c ++ [lit "content"]) d) (cx_stuart c)) = Ok tt) by (rewrite B; now destruct u).
  destruct (built_dir _ _ _ _ _ S1) as (l & out0 & L & O0 & D0 & F). pose proof (built_pages _ _ _ _ _ _ S1 O0) as PG. rewrite B in O0. cbn [fst] in O0.
  assert (Dl : ent_distinct (EDir l)) by (eapply SiteDisk.lookup_distinct; [exact Dd|exact L]).
  destruct (merge_dirs_files _ _ _ Dd _ _ _ out0 O0 M (built_once _ _ _ _ F Dl) D0) as (out' & O' & _ & H). assert (out' = out) by congruence. subst out'.
  intros ks k b pc meta src N A. destruct (H ks k b pc meta src N A) as [[A0 NN]|(-> & n & b' & In' & L')].
  - left. split; [exact (PG _ _ _ _ _ _ A0)|]. intros (n & b' & In' & L'). exact (NN n b' In' L').
  - right. split; [reflexivity|]. now exists n, b'.
Qed.

(** ** Files in the order in which they are written *)
Definition files (l : list (path * option bytes)) : list (path * bytes) := flat_map (fun e => match snd e with Some b => [(fst e, b)] | None => [] end) l.
Definition last_written (l : list (path * bytes)) (q : path) (b : bytes) : Prop := exists l1 l2, l = l1 ++ (q, b) :: l2 /\ ~ In q (map fst l2).
Lemma files_in l q : (exists b, In (q, Some b) l) <-> In q (map fst (files l)).
Proof.
  unfold files. split.
  - intros [b I]. apply in_map_iff. exists (q, b). split; [reflexivity|]. apply in_flat_map. exists (q, Some b). split; [exact I|now left].
  - intros I. apply in_map_iff in I. destruct I as ([q' b] & <- & I). apply in_flat_map in I. destruct I as ([k [x|]] & I & E); cbn in E; [|destruct E]. destruct E as [E|[]]. injection E as <- <-. now exists x.
Qed.
Lemma last_files l q b : last_file l q b <-> last_written (files l) q b.
Proof.
  split.
  - intros (l1 & l2 & -> & N). exists (files l1), (files l2). split; [unfold files; rewrite flat_map_app; reflexivity|]. intros I. apply files_in in I. destruct I as [b' I]. exact (N b' I).
  - intros (a & r & E & N). revert a E. induction l as [|[k [x|]] l IH]; intros a E; cbn in E; [destruct a; discriminate| |].
    + destruct a as [|y a]; cbn in E; [injection E as -> -> E2|injection E as _ E2].
      * exists [], l. split; [reflexivity|]. intros b' I. apply N. rewrite <- E2. fold (files l). apply files_in. now exists b'.
      * destruct (IH a E2) as (l1 & l2 & -> & N'). now exists ((k, Some x) :: l1), l2.
    + destruct (IH a E) as (l1 & l2 & -> & N'). now exists ((k, None) :: l1), l2.
Qed.
Lemma last_moved (R : path -> path -> Prop) l l' : Forall2 (fun x y => snd x = snd y /\ R (fst x) (fst y)) l l' ->
  (forall q q1 q2, R q q1 -> R q q2 -> q1 = q2) -> (forall q1 q2 q, In q1 (map fst l) -> In q2 (map fst l) -> R q1 q -> R q2 q -> q1 = q2) ->
  forall q b, last_written l' q b <-> exists q0, last_written l q0 b /\ R q0 q.
Proof.
  intros F Fu Inj q b. split.
  - intros (a' & r' & -> & N). apply Forall2_app_inv_r in F. destruct F as (a & s & Fa & Fs & ->). inversion Fs as [|[q0 b0] ? r ? [E1 E2] Fr]; subst. cbn [fst snd] in *. subst b0.
    exists q0. split; [|exact E2]. exists a, r. split; [reflexivity|]. intros I. apply N. apply in_map_iff in I. destruct I as ([k x] & E & I). cbn in E. subst k.
    destruct (Forall2_in_l _ _ _ _ Fr I) as ([k y] & Iy & Ey & Ry). cbn [fst snd] in *. rewrite (Fu _ _ _ E2 Ry). apply in_map_iff. now exists (k, y).
  - intros (q0 & (a & r & -> & N) & Rq). apply Forall2_app_inv_l in F. destruct F as (a' & s & Fa & Fs & ->). inversion Fs as [|? [q1 b1] ? r' [E1 E2] Fr]; subst. cbn [fst snd] in *. subst b1.
    rewrite (Fu _ _ _ Rq E2). exists a', r'. split; [reflexivity|]. intros I. apply N. apply in_map_iff in I. destruct I as ([k x] & E & I). cbn in E. subst k.
    destruct (Forall2_in_r _ _ _ _ Fr I) as ([k y] & Iy & Ey & Ry). cbn [fst snd] in *.
    replace q0 with k; [apply in_map_iff; now exists (k, y)|]. apply (Inj k q0 q1); [| |exact Ry|exact E2].
    + rewrite map_app. apply in_app_iff. right. right. apply in_map_iff. now exists (k, y).
    + rewrite map_app. apply in_app_iff. right. now left.
Qed.

(** ** Extensions *)
Lemma html_name ks k stem : ks ++ [k] = ks ++ [stem ++ lit ".html"] -> k = stem ++ lit ".html".
Proof. intros E. apply app_inv_head in E. now injection E. Qed.
Lemma html_stem (a b : text) : a ++ lit ".html" = b ++ lit ".html" -> a = b.
Proof. apply app_inv_tail. Qed.
Lemma extension_fun q q1 q2 : without_extension q q1 -> without_extension q q2 -> q1 = q2.
Proof.
  intros A B.
  assert (T : forall (ks ks' : path) (x y : text), ks ++ [x] = ks' ++ [y] -> ks = ks' /\ x = y) by (intros; now apply app_inj_tail).
  assert (IX : forall stem, stem ++ lit ".html" = lit "index.html" -> stem = lit "index") by (intros stem E; apply html_stem; exact E).
  inversion A as [ks stem N1 N2 N3 E1 E2|ks stem N E1 E2|ks E1 E2|ks name N E1 E2]; subst; inversion B as [ks' stem' M1 M2 M3 F1 F2|ks' stem' M F1 F2|ks' F1 F2|ks' name' M F1 F2]; subst;
    apply T in F1; destruct F1 as [-> F1]; try reflexivity.
  - apply html_stem in F1. now subst.
  - apply html_stem in F1. subst. tauto.
  - symmetry in F1. apply IX in F1. contradiction.
  - now apply M in F1.
  - apply html_stem in F1. subst. tauto.
  - now apply M in F1.
  - apply IX in F1. contradiction.
  - now rewrite F1.
  - symmetry in F1. now apply N in F1.
  - symmetry in F1. now apply N in F1.
Qed.
Lemma goes_fun c d q q1 q2 : goes c d q q1 -> goes c d q q2 -> q1 = q2.
Proof. intros [[A ->]|[A B]] [[A' ->]|[A' B']]; try contradiction; [reflexivity|]. eapply extension_fun; eassumption. Qed.

Lemma stripping_files cf c d n : forall dir l l', saves (stripping false cf) dir n l -> saves (stripping true cf) dir n l' ->
  (forall ks k b pc meta src, at_names n ks (NFile k b pc meta src) -> (pc = PNone /\ ~ copied c d (dir ++ n_name n :: ks)) \/ (pc = PIgnored /\ copied c d (dir ++ n_name n :: ks))) ->
  Forall2 (fun x y => snd x = snd y /\ goes c d (fst x) (fst y)) (files l) (files l').
Proof.
  induction n as [name b pc meta src|name ch src IH] using node_ind2; intros dir l l' S S' H.
  - specialize (H [] name b pc meta src (an_here _)). cbn [n_name] in H.
    inversion S as [? ? ? ? ? ? Hd| | |? ? ? ? ? ? NH NS P|]; subst; try (match goal with X : stripped _ _ _ _ |- _ => destruct X as [X _]; discriminate X end).
    + inversion S' as [| ? ? ? ? ? ? ? NH|? ? ? ? ? ? ? NH|? ? ? ? ? ? NH|]; subst; try (now destruct (NH Hd)). constructor.
    + inversion S' as [? ? ? ? ? ? Hd'|? ? stem ? ? ? ? NH' (_ & NI & NG & E) Ps|? ? stem ? ? ? ? NH' (_ & NI & NG & E) Ps|? ? ? ? ? ? NH' NS' P'|]; subst.
      * now destruct (NH Hd').
      * cbn. constructor; [|constructor]. split; [reflexivity|]. destruct H as [[_ H]|[-> _]]; [|contradiction]. right. split; [exact H|]. constructor; try apply Ps. intros ->. now apply NI.
      * cbn. constructor; [|constructor]. split; [reflexivity|]. destruct H as [[_ H]|[-> _]]; [|contradiction]. right. split; [exact H|]. now constructor.
      * cbn. constructor; [|constructor]. split; [reflexivity|]. destruct H as [[-> H]|[-> H]]; [|now left]. right. split; [exact H|].
        destruct (list_eq_dec N.eq_dec name (lit "index.html")) as [->|NI]; [apply we_index|]. apply we_other. intros stem ->. apply (NS' stem). repeat split; try assumption. discriminate.
  - inversion S as [| | | |? ? ? ? l0 P SA]; subst. inversion S' as [| | | |? ? ? ? l0' P' SA']; subst. cbn [files flat_map snd app].
    change (Forall2 (fun x y => snd x = snd y /\ goes c d (fst x) (fst y)) (files l0) (files l0')).
    assert (H' : forall x, In x ch -> forall ks k b pc meta src, at_names x ks (NFile k b pc meta src) ->
      (pc = PNone /\ ~ copied c d ((dir ++ [name]) ++ n_name x :: ks)) \/ (pc = PIgnored /\ copied c d ((dir ++ [name]) ++ n_name x :: ks))).
    { intros x I ks k b pc meta src0 A. rewrite <- app_assoc. apply (H (n_name x :: ks) k b pc meta src0). now apply an_child. }
    clear H S S' P P'. revert l0 l0' SA SA' H'. induction IH as [|x ch Hx _ IHc]; intros l0 l0' SA SA' H'; inversion SA; subst; inversion SA'; subst; [constructor|].
    unfold files. rewrite !flat_map_app. apply Forall2_app; [eapply Hx; [eassumption|eassumption|]; intros; eapply H'; [now left|eassumption]|]. apply IHc; try assumption. intros y I. apply H'. now right.
Qed.
Lemma stripping_all cf c d ch : forall dir l l', saves_all (stripping false cf) dir ch l -> saves_all (stripping true cf) dir ch l' ->
  (forall x, In x ch -> forall ks k b pc meta src, at_names x ks (NFile k b pc meta src) -> (pc = PNone /\ ~ copied c d (dir ++ n_name x :: ks)) \/ (pc = PIgnored /\ copied c d (dir ++ n_name x :: ks))) ->
  Forall2 (fun x y => snd x = snd y /\ goes c d (fst x) (fst y)) (files l) (files l').
Proof.
  induction ch as [|x ch IH]; intros dir l l' S S' H; inversion S; subst; inversion S'; subst; [constructor|]. unfold files. rewrite !flat_map_app.
  apply Forall2_app; [eapply stripping_files; [eassumption|eassumption|apply H; now left]|]. eapply IH; try eassumption. intros y I. apply H. now right.
Qed.

(** ** Data files *)
Lemma data_spec q : ends_with (lit ".json") (last q []) = true <-> data_file q.
Proof.
  destruct q as [|k ks _] using rev_ind; [split; [discriminate|intros (ks & s & E); now destruct ks]|]. rewrite last_last, ends_with_spec. split.
  - intros [s ->]. now exists ks, s.
  - intros (ks' & s & E). apply app_inj_tail in E. destruct E as [_ ->]. now exists s.
Qed.
Definition no_data (x : path * bytes) : bool := negb (ends_with (lit ".json") (last (fst x) [])).
Lemma no_data_spec x : no_data x = true <-> ~ data_file (fst x).
Proof. unfold no_data. rewrite <- data_spec. now destruct (ends_with _ _). Qed.
Lemma json_index ks : ~ data_file (ks ++ [lit "index.html"]).
Proof. intros (ks' & s & E). apply app_inj_tail in E. destruct E as [_ E]. assert (X : ends_with (lit ".json") (lit "index.html") = true) by (apply ends_with_spec; now exists s). discriminate X. Qed.
Lemma data_files cf n : forall dir l l', saves (with_data true cf) dir n l -> saves (with_data false cf) dir n l' -> files l' = filter no_data (files l).
Proof.
  assert (ND : forall q b, ~ data_file q -> no_data (q, b) = true) by (intros q b N; now apply no_data_spec).
  assert (HD : forall name, hidden (with_data true cf) name -> hidden (with_data false cf) name) by (intros name [H|[H _]]; [now left|discriminate]).
  assert (SJ : forall name pc stem, stripped (with_data true cf) name pc stem <-> stripped (with_data false cf) name pc stem) by reflexivity.
  induction n as [name b pc meta src|name ch src IH] using node_ind2; intros dir l l' S S'.
  - inversion S as [? ? ? ? ? ? Hd|? ? stem ? ? ? ? NH St Ps|? ? stem ? ? ? ? NH St Ps|? ? ? ? ? ? NH NS P|]; subst.
    + inversion S' as [| ? ? ? ? ? ? ? NH|? ? ? ? ? ? ? NH|? ? ? ? ? ? NH|]; subst; try (destruct NH; now apply HD). reflexivity.
    + assert (HX : ~ hidden (with_data false cf) name).
      { intros [H|[_ [s E]]]; [apply NH; now left|]. destruct St as (_ & _ & _ & E'). rewrite E' in E. assert (X : ends_with (lit ".json") (stem ++ lit ".html") = true) by (apply ends_with_spec; now exists s). rewrite E in *.
        assert (Y : exists r, s ++ lit ".json" = r ++ lit ".html") by (now exists stem). destruct Y as [r Y]. apply (f_equal (@rev _)) in Y. rewrite !rev_app_distr in Y. discriminate Y. }
      inversion S' as [? ? ? ? ? ? Hd'|? ? stem' ? ? ? ? NH' St' Ps'|? ? stem' ? ? ? ? NH' St' Ps'|? ? ? ? ? ? NH' NS' P'|]; subst.
      * contradiction.
      * destruct St as (_ & _ & _ & E), St' as (_ & _ & _ & E'). rewrite E in E'. apply html_stem in E'. subst stem'. cbn. rewrite ND; [reflexivity|]. intros X. apply (json_index (dir ++ [stem])). rewrite <- app_assoc. exact X.
      * destruct St as (_ & _ & _ & E), St' as (_ & _ & _ & E'). rewrite E in E'. apply html_stem in E'. subst stem'. destruct Ps as (P1 & P2 & _). destruct Ps'; contradiction.
      * apply SJ in St. now apply NS' in St.
    + assert (HX : ~ hidden (with_data false cf) name).
      { intros [H|[_ [s E]]]; [apply NH; now left|]. destruct St as (_ & _ & _ & E'). rewrite E' in E. apply (f_equal (@rev _)) in E. rewrite !rev_app_distr in E. discriminate E. }
      inversion S' as [? ? ? ? ? ? Hd'|? ? stem' ? ? ? ? NH' St' Ps'|? ? stem' ? ? ? ? NH' St' Ps'|? ? ? ? ? ? NH' NS' P'|]; subst.
      * contradiction.
      * destruct St as (_ & _ & _ & E), St' as (_ & _ & _ & E'). rewrite E in E'. apply html_stem in E'. subst stem'. destruct Ps' as (P1 & P2 & _). destruct Ps; contradiction.
      * cbn. rewrite ND; [reflexivity|]. apply json_index.
      * apply SJ in St. now apply NS' in St.
    + inversion S' as [? ? ? ? ? ? Hd'|? ? stem' ? ? ? ? NH' St' Ps'|? ? stem' ? ? ? ? NH' St' Ps'|? ? ? ? ? ? NH' NS' P'|]; subst.
      * cbn [files flat_map snd fst app filter]. match goal with |- _ = if ?x then _ else _ => destruct x eqn:D end; [|reflexivity]. apply no_data_spec in D. exfalso. destruct Hd' as [H|[_ [s ->]]]; [apply NH; now left|]. apply D. now exists dir, s.
      * apply SJ in St'. now apply NS in St'.
      * apply SJ in St'. now apply NS in St'.
      * cbn. rewrite ND; [reflexivity|]. intros (ks & s & E). apply app_inj_tail in E. destruct E as [_ E]. apply NH'. right. split; [reflexivity|]. now exists s.
  - inversion S as [| | | |? ? ? ? l0 P SA]; subst. inversion S' as [| | | |? ? ? ? l0' P' SA']; subst. change (files l0' = filter no_data (files l0)).
    clear S S' P P'. revert l0 l0' SA SA'. induction IH as [|x ch Hx _ IHc]; intros l0 l0' SA SA'; inversion SA; subst; inversion SA'; subst; [reflexivity|].
    unfold files. rewrite !flat_map_app, filter_app. f_equal; [eapply Hx; eassumption|now apply IHc].
Qed.
Lemma data_all cf ch : forall dir l l', saves_all (with_data true cf) dir ch l -> saves_all (with_data false cf) dir ch l' -> files l' = filter no_data (files l).
Proof.
  induction ch as [|x ch IH]; intros dir l l' S S'; inversion S; subst; inversion S'; subst; [reflexivity|]. unfold files. rewrite !flat_map_app, filter_app.
  f_equal; [eapply data_files; eassumption|eapply IH; eassumption].
Qed.
Lemma filter_split {A} (f : A -> bool) l : forall a x r, filter f l = a ++ x :: r -> exists l1 l2, l = l1 ++ x :: l2 /\ filter f l1 = a /\ filter f l2 = r.
Proof.
  induction l as [|y l IH]; intros a x r E; cbn [filter] in E; [destruct a; discriminate|]. destruct (f y) eqn:Fy.
  - destruct a as [|z a]; injection E as <- E; [now exists [], l|]. destruct (IH _ _ _ E) as (l1 & l2 & -> & A1 & A2). exists (y :: l1), l2. cbn. rewrite Fy. now subst.
  - destruct (IH _ _ _ E) as (l1 & l2 & -> & A1 & A2). exists (y :: l1), l2. cbn. rewrite Fy. now subst.
Qed.
Lemma last_data l q b : last_written (filter no_data l) q b <-> last_written l q b /\ ~ data_file q.
Proof.
  pose proof no_data_spec as ND.
  split.
  - intros (a & r & E & N). assert (D : ~ data_file q). { apply (ND (q, b)). assert (I : In (q, b) (filter no_data l)) by (rewrite E; apply in_app_iff; right; now left). now apply filter_In in I. }
    split; [|exact D]. destruct (filter_split _ _ _ _ _ E) as (l1 & l2 & -> & A1 & A2). exists l1, l2. split; [reflexivity|]. intros I. apply N. apply in_map_iff in I. destruct I as ([k x] & E' & I). cbn in E'. subst k.
    apply in_map_iff. exists (q, x). split; [reflexivity|]. rewrite <- A2. apply filter_In. split; [exact I|]. now apply ND.
  - intros [(a & r & -> & N) D]. exists (filter no_data a), (filter no_data r). split; [rewrite filter_app; cbn [filter]; now rewrite (proj2 (ND (q, b)) D)|].
    intros I. apply N. apply in_map_iff in I. destruct I as ([k x] & E' & I). apply filter_In in I. apply in_map_iff. exists (k, x). now split.
Qed.

(** ** Two builds of one project *)
Lemma done_parts m f c d d' d1 : ran (m_script m) (cx_pre c) d d1 -> idle_after m c -> leaves m f c d = (d', COk) ->
  exists st d3, build_and_merge m c d1 = (st, Ok tt) /\
    save (fl_save f) st (output_dir c) (remove_temp (fl_temp f) (cx_dir c ++ [lit "temp"]) d1) = (d3, Ok tt) /\
    if cf_meta (st_config st) then save_metadata (m_ser m) (fl_meta f) st (metadata_file c) d3 = (d', Ok tt) else d' = d3.
Proof.
  intros R IA L. unfold leaves, cli_build in L. apply run_scripts_ran in R. rewrite R in L. destruct (build_and_merge m c d1) as [st r]. fold (output_dir c) in L.
  destruct r as [[]| | |]; cbn [fst snd of_res] in L; try discriminate. destruct (save _ st _ _) as [d3 r] eqn:S0. destruct r as [[]| | |]; cbn [fst snd of_res] in L; try discriminate.
  exists st, d3. split; [reflexivity|]. split; [exact S0|]. fold (metadata_file c) in L. destruct (cf_meta (st_config st)).
  - destruct (save_metadata _ _ _ _ _) as [d4 r]. destruct r as [[]| | |]; cbn [fst snd of_res] in L; try discriminate. rewrite idle_run in L by exact IA. cbn in L. now injection L as ->.
  - rewrite idle_run in L by exact IA. cbn in L. now injection L.
Qed.
Lemma meta_written ser f st p d d' : save_metadata ser f st p d = (d', Ok tt) -> exists v, metadata_value st = Ok v /\ what p d' = KFile (ser v).
Proof.
  unfold save_metadata. destruct (metadata_value st) as [v| | |]; try discriminate. destruct (run_ops f _ d) as [d0 ok] eqn:R. destruct ok; [|discriminate]. intros E; injection E as ->.
  apply run_ops_cons in R. destruct R as (f' & d1 & R1 & R2). cbn in R2. injection R2 as <-. apply write_effect in R1. destruct R1 as [_ R1]. exists v. split; [reflexivity|]. rewrite R1. now destruct (path_eq p p).
Qed.
Lemma two_builds m f cf cf' c d d1 d0 d0' : cf_meta cf' = cf_meta cf -> cf_name cf' = cf_name cf -> cf_author cf' = cf_author cf -> ran (m_script m) (cx_pre c) d d1 -> idle_after m c ->
  sound f (configured cf c) d1 -> leaves m f (configured cf c) d = (d0, COk) -> leaves m f (configured cf' c) d = (d0', COk) ->
  exists ch l l', saves_all cf [] ch l /\ saves_all cf' [] ch l' /\
    (forall x, In x ch -> forall ks k b pc meta src, at_names x ks (NFile k b pc meta src) -> (pc = PNone /\ ~ copied c d1 (n_name x :: ks)) \/ (pc = PIgnored /\ copied c d1 (n_name x :: ks))) /\
    (forall q b, what (output_dir c ++ q) d0 = KFile b <-> last_file l q b) /\ (forall q b, what (output_dir c ++ q) d0' = KFile b <-> last_file l' q b) /\
    (forall q, ~ above (output_dir c) q -> what q d0' = what q d0).
Proof.
  intros CM CN CA R IA (Dd & IP & FT & MO) L L'.
  assert (R0 : ran (m_script m) (cx_pre (configured cf c)) d d1) by exact R. assert (R0' : ran (m_script m) (cx_pre (configured cf' c)) d d1) by exact R.
  destruct (done_parts _ _ _ _ _ _ R0 IA L) as (st & d3 & B & S & W). destruct (done_parts _ _ _ _ _ _ R0' IA L') as (st' & d3' & B' & S' & W'). clear L L' R0 R0'.
  pose proof (merged_configured m cf cf' c d1 CM) as E. rewrite B, B' in E. cbn [fst snd] in E. injection E as ->.
  destruct (merged_output _ _ _ _ B) as (out & O & D & Cf & _ & _ & T). cbn [configured cx_stuart with_config st_config] in Cf.
  change (output_dir (configured cf c)) with (output_dir c) in *. change (output_dir (configured cf' c)) with (output_dir c) in *.
  change (metadata_file (configured cf c)) with (metadata_file c) in *. change (metadata_file (configured cf' c)) with (metadata_file c) in *.
  change (cx_dir (configured cf c)) with (cx_dir c) in *. change (cx_dir (configured cf' c)) with (cx_dir c) in *. cbn [configured cx_stuart with_config st_config] in MO, W'. rewrite Cf in W. rewrite CM in W'.
  destruct out as [|name ch src] eqn:Eo; [discriminate|]. rewrite <- Eo in O, T.
  assert (Tc : forall cf0 x n, In x ch -> inside n x -> tame cf0 n) by (intros cf0 x n I J; subst out; exact (T cf0 IP ch x n eq_refl I J)).
  destruct (tame_saves_all cf ch (Tc cf) []) as [l SA]. destruct (tame_saves_all cf' ch (Tc cf') []) as [l' SA']. exists ch, l, l'. split; [exact SA|]. split; [exact SA'|].
  assert (Cn : n_children out = Some ch) by now subst out.
  pose proof (remove_temp_distinct (fl_temp f) (cx_dir c ++ [lit "temp"]) d1 Dd FT) as D2. set (d2 := remove_temp _ _ d1) in *. clearbody d2.
  assert (X : exactly (output_dir c) l d3) by (eapply save_exactly; [exact O|exact Cn|rewrite Cf; exact SA|exact D2|exact S]).
  assert (X' : exactly (output_dir c) l' d3') by (eapply (save_exactly _ (with_config cf' st)); [exact O|exact Cn|exact SA'|exact D2|exact S']).
  assert (NM : forall q, cf_meta cf = true -> output_dir c ++ q <> metadata_file c) by (intros q M E; apply (MO M); exists q; now rewrite E).
  assert (WQ : forall q, q <> metadata_file c \/ cf_meta cf = false -> what q d0 = what q d3 /\ what q d0' = what q d3').
  { intros q N. destruct (cf_meta cf); [|now subst]. destruct N as [N|]; [|discriminate]. split; [exact (write_meta _ _ _ _ _ _ W q N)|exact (write_meta _ _ _ _ _ _ W' q N)]. }
  assert (WO : forall q, output_dir c ++ q <> metadata_file c \/ cf_meta cf = false) by (intros q; destruct (cf_meta cf); [left; now apply NM|now right]).
  split; [|split; [|split]].
  - intros x I ks k b pc meta src0 A. apply (merged_files _ _ _ _ _ B Dd O (n_name x :: ks) k b pc meta src0); [discriminate|]. subst out. now apply an_child.
  - intros q b. rewrite (proj1 (WQ _ (WO q))). apply X.
  - intros q b. rewrite (proj2 (WQ _ (WO q))). apply X'.
  - intros q N. assert (Q : what q d3' = what q d3).
    { pose proof (save_outside (fl_save f) st (output_dir c) d2 out O ltac:(rewrite Cf; exact (T cf IP)) q N) as Y. rewrite S in Y.
      pose proof (save_outside (fl_save f) (with_config cf' st) (output_dir c) d2 out O (T cf' IP) q N) as Y'. rewrite S' in Y'. cbn [fst] in *. congruence. }
    destruct (path_eq q (metadata_file c)) as [->|NE].
    + destruct (cf_meta cf) eqn:M.
      * destruct (meta_written _ _ _ _ _ _ W) as (v & V & ->). destruct (meta_written _ _ _ _ _ _ W') as (v' & V' & ->).
        assert (v' = v); [|now subst]. unfold metadata_value in V, V'. cbn [with_config st_config st_output] in V'. rewrite Cf in V. rewrite CM, CN, CA in V'. rewrite M in V. rewrite V in V'. now injection V'.
      * destruct (WQ (metadata_file c) (or_intror eq_refl)) as [-> ->]. exact Q.
    + destruct (WQ q (or_introl NE)) as [-> ->]. exact Q.
Qed.
Lemma strip_builds m f cf c d d1 d0 d0' : ran (m_script m) (cx_pre c) d d1 -> idle_after m c -> sound f (configured cf c) d1 ->
  leaves m f (configured (stripping false cf) c) d = (d0, COk) -> leaves m f (configured (stripping true cf) c) d = (d0', COk) ->
  (forall q1 q2 q b1 b2, what (output_dir c ++ q1) d0 = KFile b1 -> what (output_dir c ++ q2) d0 = KFile b2 -> goes c d1 q1 q -> goes c d1 q2 q -> q1 = q2) ->
  (forall q b, what (output_dir c ++ q) d0' = KFile b <-> exists q0, what (output_dir c ++ q0) d0 = KFile b /\ goes c d1 q0 q) /\
  (forall q, ~ above (output_dir c) q -> what q d0' = what q d0).
Proof.
  intros R IA So L L' Inj.
  destruct (two_builds m f (stripping false cf) (stripping true cf) c d d1 d0 d0' eq_refl eq_refl eq_refl R IA So L L') as (ch & l & l' & SA & SA' & H & X & X' & Ou).
  split; [|exact Ou]. intros q b. rewrite X', last_files.
  rewrite (last_moved (goes c d1) (files l) (files l')).
  - split; intros (q0 & A & G); exists q0; (split; [|exact G]); [apply X, last_files, A|apply last_files, X, A].
  - exact (stripping_all cf c d1 ch [] l l' SA SA' H).
  - apply goes_fun.
  - intros q1 q2 q' I1 I2 G1 G2. apply files_in in I1, I2. destruct I1 as [b1 I1], I2 as [b2 I2]. apply last_exists in I1, I2. destruct I1 as [b1' I1], I2 as [b2' I2]. apply X in I1, I2. eapply Inj; eassumption.
Qed.
Lemma data_builds m f cf c d d1 d0 d0' : ran (m_script m) (cx_pre c) d d1 -> idle_after m c -> sound f (configured cf c) d1 ->
  leaves m f (configured (with_data true cf) c) d = (d0, COk) -> leaves m f (configured (with_data false cf) c) d = (d0', COk) ->
  (forall q b, what (output_dir c ++ q) d0' = KFile b <-> what (output_dir c ++ q) d0 = KFile b /\ ~ data_file q) /\
  (forall q, ~ above (output_dir c) q -> what q d0' = what q d0).
Proof.
  intros R IA So L L'.
  destruct (two_builds m f (with_data true cf) (with_data false cf) c d d1 d0 d0' eq_refl eq_refl eq_refl R IA So L L') as (ch & l & l' & SA & SA' & _ & X & X' & Ou).
  split; [|exact Ou]. intros q b. rewrite X', X, !last_files, (data_all cf ch [] l l' SA SA'). apply last_data.
Qed.
(** The tree that is built. *)
Lemma settings_build h osenv mode d st cf cf' : let b := build h osenv mode d (with_config cf st) in let b' := build h osenv mode d (with_config cf' st) in
  snd b' = snd b /\ option_map bare (st_output (fst b')) = option_map bare (st_output (fst b)) /\ (cf_meta cf' = cf_meta cf -> st_output (fst b') = st_output (fst b)).
Proof.
  cbv zeta. destruct (build_twins cf cf' h osenv mode d _ _ (twins_configured cf cf' st)) as [[_ _ _ O _ _] E]. split; [exact E|]. split; [exact O|].
  intros M. now rewrite (build_configured cf cf' h osenv mode d st M).
Qed.
