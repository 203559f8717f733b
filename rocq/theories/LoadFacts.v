(** LoadFacts.v -- where plugins come from (C68, C69). *)

From Coq Require Import String List NArith ZArith Bool Lia.
From Verif Require Import Text Utf8 Json Base Syntax Parse Tree Interp Build Disk Cli Load SpecScope SpecTree SpecDisk SpecProject SpecLoad.
From Verif Require Import TextFacts Utf8Facts ScopeFacts TreeFacts PathFacts DiskFacts SaveFacts ProjectFacts CliFacts ProgramFacts.
Import ListNotations.

(** ** Paths *)
Lemma store_path root name : plain name -> join_path root (lit "_build/plugins/" ++ name) = store root name.
Proof.
  intros P. assert (NS := P). destruct NS as (_ & _ & _ & NS). unfold join_path, store.
  assert (E : split_char c_slash (lit "_build/plugins/" ++ name) = (lit "_build", [lit "plugins"; name])).
  { change (lit "_build/plugins/" ++ name) with (lit "_build" ++ c_slash :: (lit "plugins" ++ c_slash :: name)).
    apply split_char_app; [vm_compute; intuition discriminate|]. apply split_char_app; [vm_compute; intuition discriminate|]. now apply split_char_nil. }
  rewrite E. change (starts_with [c_slash] (lit "_build/plugins/" ++ name)) with false. cbv iota. cbn [fold_left].
  assert (S1 : forall p, step_component p (lit "_build") = p ++ [lit "_build"]) by reflexivity. assert (S2 : forall p, step_component p (lit "plugins") = p ++ [lit "plugins"]) by reflexivity.
  rewrite S1, S2. assert (S3 : forall p, step_component p name = p ++ [name]).
  { intros p. pose proof (join_plain p name P) as J. unfold join_path in J. rewrite (split_char_nil c_slash name NS) in J. cbn [fold_left] in J.
    destruct name as [|c name]; [now destruct P|]. unfold starts_with in J. cbn [strip_prefix] in J. destruct (N.eqb_spec c_slash c) as [<-|NE]; [exfalso; apply NS; now left|exact J]. }
  rewrite S3, <- !app_assoc. reflexivity.
Qed.
Lemma prefixes_spec p q : In q (prefixes p) <-> above q p.
Proof.
  split.
  - revert q. induction p as [|c p IH]; intros q; cbn [prefixes In]; [intros [<-|[]]; now exists []|]. intros [<-|I]; [now exists (c :: p)|].
    apply in_map_iff in I. destruct I as (r & <- & I). apply IH in I. now apply above_cons.
  - intros [r ->]. induction q as [|c q IH]; cbn [app prefixes].
    + destruct r; now left.
    + right. now apply in_map.
Qed.
Lemma dir_above p r d : what (p ++ r) d = KDir -> what p d = KDir.
Proof. unfold what. rewrite lookup_app. destruct (lookup p d) as [[|l|]|]; [destruct r; discriminate|reflexivity|destruct r; discriminate|discriminate]. Qed.
Lemma file_above p r d b : r <> [] -> what (p ++ r) d = KFile b -> what p d = KDir.
Proof. unfold what. rewrite lookup_app. intros N. destruct (lookup p d) as [[|l|]|]; [destruct r; [contradiction|discriminate]|reflexivity|destruct r; [contradiction|discriminate]|discriminate]. Qed.
Lemma above_cases (q : path) : forall p r, above q (p ++ r) -> above q p \/ above p q.
Proof.
  induction q as [|c q IH]; intros p r A; [left; now exists p|]. destruct p as [|k p]; [right; now exists (c :: q)|]. cbn [app] in A. apply above_cons in A. destruct A as [<- A].
  destruct (IH p r A) as [H|H]; [left|right]; now apply above_cons.
Qed.
Lemma mkdir_all_below root b r d : what root d = KDir -> Forall (fun o => above (root ++ [b]) (op_path o)) (mkdir_all (root ++ b :: r) d).
Proof.
  intros R. apply Forall_forall. intros o I. unfold mkdir_all in I. apply in_map_iff in I. destruct I as (q & <- & I). apply filter_In in I. destruct I as [I F]. cbn [op_path].
  apply prefixes_spec in I. change (b :: r) with ([b] ++ r) in I. rewrite app_assoc in I.
  assert (N : what q d <> KDir) by (intros E; apply is_edir_spec in E; rewrite E in F; discriminate).
  destruct (above_cases q (root ++ [b]) r I) as [A|A]; [|exact A]. destruct A as [s A].
  destruct s as [|x s _] using rev_ind; [rewrite app_nil_r in A; rewrite A; exists []; now rewrite app_nil_r|]. exfalso. rewrite app_assoc in A. apply app_inj_tail in A. destruct A as [-> _]. now apply N, (dir_above q s).
Qed.

(** ** Projects in a repository *)
Lemma ent_nested (P : ent -> Prop) (F : forall b, P (EFile b)) (O : P EOther) (D : forall l, Forall (fun ke => P (snd ke)) l -> P (EDir l)) : forall e, P e.
Proof. fix IH 1. intros [b|l|]; [apply F| |apply O]. apply D. induction l as [|[k e] l IHl]; constructor; [apply IH|apply IHl]. Qed.
Lemma in_assoc {A} k (e : A) l : NoDup (map fst l) -> In (k, e) l -> assoc k l = Some e.
Proof.
  induction l as [|[k0 e0] l IH]; intros ND I; [destruct I|]. inversion ND as [|? ? N ND']; subst. cbn [assoc]. destruct I as [E|I].
  - injection E as -> ->. now rewrite text_eqb_refl.
  - destruct (text_eqb k0 k) eqn:T; [|now apply IH]. apply text_eqb_eq in T. subst k. exfalso. apply N. now apply (in_map fst) in I.
Qed.
Lemma named_spec L b name : match project_name L (Some (EFile b)) with Some n => text_eqb n name | None => false end = true <-> exists t, SpecChars.utf8_text b t /\ lo_package L t = Some name.
Proof.
  unfold project_name. split.
  - destruct (from_utf8 b) as [t|] eqn:U; [|discriminate]. apply decoding in U. destruct (lo_package L t) as [n|] eqn:N; [|discriminate]. intros E. apply text_eqb_eq in E. subst n. exists t. now split.
  - intros (t & S & N). apply decoding in S. rewrite S, N. apply text_eqb_refl.
Qed.
Lemma find_sound L name e : ent_distinct e -> forall p q, find_project L name p e = Some q -> exists r, q = p ++ r /\ package L r e name.
Proof.
  induction e as [b| |l IH] using ent_nested; intros D p q; cbn [find_project]; [discriminate|discriminate|].
  inversion D as [| |? ND FD]; subst. rewrite Forall_forall in IH, FD.
  set (go := fix go l := match l with [] => None | _ => _ end).
  assert (G : forall l', (exists l0, l = l0 ++ l') -> go l' = Some q -> exists r, q = p ++ r /\ package L r (EDir l) name).
  { induction l' as [|[k e] l' IHl]; intros [l0 E] F; [discriminate|]. assert (NX : exists l1, l = l1 ++ l') by (exists (l0 ++ [(k, e)]); now rewrite <- app_assoc).
    assert (IN : In (k, e) l) by (rewrite E; apply in_app_iff; right; now left). assert (AS : assoc k l = Some e) by (now apply in_assoc).
    cbn [go] in F. destruct e as [b|l1|].
    - destruct (text_eqb k (lit "Cargo.toml") && _) eqn:C; [|now apply IHl]. apply andb_true_iff in C. destruct C as [C1 C2]. apply text_eqb_eq in C1. subst k. apply named_spec in C2. destruct C2 as (t & S & N).
      injection F as <-. exists []. split; [now rewrite app_nil_r|]. exists b, t. split; [|now split]. unfold what. cbn [app lookup]. now rewrite AS.
    - destruct (find_project L name (p ++ [k]) (EDir l1)) as [q'|] eqn:R; [|now apply IHl]. injection F as ->. destruct (IH _ IN (FD _ IN) _ _ R) as (r & -> & b & t & W & S & N).
      exists (k :: r). split; [now rewrite <- app_assoc|]. exists b, t. split; [|now split]. unfold what. cbn [app lookup]. rewrite AS. exact W.
    - now apply IHl. }
  apply G. now exists [].
Qed.
Lemma find_complete L name e : forall p r, package L r e name -> find_project L name p e <> None.
Proof.
  induction e as [b| |l IH] using ent_nested; intros p r (b0 & t & W & S & N); [destruct r; discriminate|destruct r; discriminate|]. cbn [find_project]. rewrite Forall_forall in IH.
  set (go := fix go l := match l with [] => None | _ => _ end).
  assert (X : exists k e, assoc k l = Some e /\ ((k = lit "Cargo.toml" /\ e = EFile b0) \/ (exists l1 r', e = EDir l1 /\ package L r' e name))).
  { unfold what in W. destruct r as [|k r]; cbn [app lookup] in W.
    - destruct (assoc (lit "Cargo.toml") l) as [e|] eqn:A; [|discriminate]. exists (lit "Cargo.toml"), e. split; [exact A|]. left. split; [reflexivity|]. cbn [lookup] in W. destruct e; try discriminate. cbn in W. now injection W as ->.
    - destruct (assoc k l) as [e|] eqn:A; [|discriminate]. exists k, e. split; [exact A|]. right. destruct e as [b|l1|]; [destruct r; discriminate| |destruct r; discriminate].
      exists l1, r. split; [reflexivity|]. exists b0, t. now split. }
  destruct X as (k & e & A & X). apply assoc_in in A. revert IH A. clear W. induction l as [|[k0 e0] l IHl]; intros IH A; [destruct A|]. cbn [go].
  assert (STEP : In (k, e) l -> go l <> None) by (intros I; apply IHl; [intros x Hx; apply IH; now right|exact I]).
  destruct A as [E|A].
  - injection E as -> ->. destruct X as [[-> ->]|(l1 & r' & -> & PK)].
    + assert (Q : match project_name L (Some (EFile b0)) with Some n => text_eqb n name | None => false end = true) by (apply named_spec; exists t; now split).
      rewrite Q. discriminate.
    + destruct (find_project L name (p ++ [k]) (EDir l1)) as [q|] eqn:F; [discriminate|]. exfalso. exact (IH (k, EDir l1) (or_introl eq_refl) (p ++ [k]) r' PK F).
  - specialize (STEP A). destruct e0 as [b|l1|]; [destruct (_ && _); [discriminate|exact STEP]| |exact STEP]. destruct (find_project L name (p ++ [k0]) (EDir l1)); [discriminate|exact STEP].
Qed.

(** ** Staying inside *)
Lemma build_below L p d : stays_below (lo_cargo L) -> same_outside p d (fst (build_and_load L p d)).
Proof. intros T. unfold build_and_load. pose proof (T p d) as H. destruct (lo_cargo L p d) as [d1 [|]]; [|exact H]. destruct (project_name _ _); exact H. Qed.
Lemma find_below L name e : forall p q, find_project L name p e = Some q -> above p q.
Proof.
  induction e as [b| |l IH] using ent_nested; intros p q; cbn [find_project]; [discriminate|discriminate|]. rewrite Forall_forall in IH.
  set (go := fix go l := match l with [] => None | _ => _ end). revert IH. induction l as [|[k e] l IHl]; intros IH F; [discriminate|]. cbn [go] in F.
  assert (NX : go l = Some q -> above p q) by (intros F'; apply IHl; [intros x Hx; apply IH; now right|exact F']).
  destruct e as [b|l1|]; [destruct (_ && _); [injection F as <-; exists []; now rewrite app_nil_r|now apply NX]| |now apply NX].
  destruct (find_project L name (p ++ [k]) (EDir l1)) as [q'|] eqn:R; [|now apply NX]. injection F as ->. apply (IH _ (or_introl eq_refl)) in R. destruct R as [s ->]. exists ([k] ++ s). now rewrite app_assoc.
Qed.
Lemma segment_below p seg : ~ In c_slash seg -> forall b r, p = b ++ r -> r <> [] -> above b (join_path p seg).
Proof.
  intros NS b r -> NR. unfold join_path. rewrite (split_char_nil c_slash seg NS). cbn [fold_left].
  replace (starts_with [c_slash] seg) with false by (destruct seg as [|c s]; [reflexivity|]; unfold starts_with; cbn [strip_prefix]; destruct (N.eqb_spec c_slash c) as [<-|]; [exfalso; apply NS; now left|reflexivity]).
  unfold step_component. destruct (_ || _); [apply above_app|]. destruct (text_eqb _ _); [rewrite removelast_app by exact NR; apply above_app|]. rewrite <- app_assoc. apply above_app.
Qed.
Lemma segment_no_slash src : match split_char c_slash src with (h, r) => ~ In c_slash (last (h :: r) []) end.
Proof.
  pose proof (split_char_spec c_slash src) as F. destruct (split_char c_slash src) as [h r]. destruct F as [F1 F2]. assert (F : Forall (fun k => ~ In c_slash k) (h :: r)) by (now constructor).
  rewrite Forall_forall in F. apply F. clear. revert h. induction r as [|k r IH]; intros h; [now left|]. right. apply IH.
Qed.
Lemma store_below root name : above (root ++ [lit "_build"]) (store root name).
Proof. unfold store. exists [lit "plugins"; name]. now rewrite <- app_assoc. Qed.
Lemma fetch_inside L f root name src d : (forall u, stays_below (lo_clone L u)) -> stays_below (lo_pull L) -> what root d = KDir ->
  forall q, ~ above (root ++ [lit "_build"]) q -> what q (fst (fetch L f root (store root name) src d)) = what q d.
Proof.
  intros T1 T2 R q N1. unfold fetch. destruct (lookup (store root name) d).
  - apply (same_outside_weaken _ _ _ _ (store_below root name) (T2 _ d)). exact N1.
  - pose proof (run_ops_outside _ _ (mkdir_all_below root (lit "_build") [lit "plugins"] d R) f d q N1) as H. destruct (run_ops _ _ d) as [d1 [|]]; [|exact H].
    cbn [fst] in H. rewrite <- H. apply (same_outside_weaken _ _ _ _ (store_below root name) (T1 src _ d1)). exact N1.
Qed.
Lemma source_inside L fs root name src d : tidy L -> plain name -> what root d = KDir ->
  forall q, ~ above (root ++ [lit "_build"]) q -> ~ above (join_path root src) q -> what q (fst (load_from_source L fs root name src d)) = what q d.
Proof.
  intros (T1 & T2 & T3) P R q N1 N2. unfold load_from_source. rewrite (store_path root name P).
  assert (AB : above (root ++ [lit "_build"]) (store root name)) by (unfold store; exists [lit "plugins"; name]; now rewrite <- app_assoc).
  assert (W : forall d', same_outside (store root name) d d' -> what q d' = what q d) by (intros d' H; apply (same_outside_weaken _ _ _ _ AB H); exact N1).
  destruct (lookup (join_path root src) d) as [[b|l|]|]; [reflexivity| | |]; (destruct (lookup (join_path root src ++ [lit "Cargo.toml"]) d) as [e|]; [now apply (build_below L (join_path root src) d T3)|]).
  all: destruct (lo_remote L src).
  2,4,6: destruct (lo_get L src) as [b|]; [|reflexivity]; pose proof (segment_no_slash src) as SG; destruct (split_char c_slash src) as [h r];
    (assert (F : Forall (fun o => above (root ++ [lit "_build"]) (op_path o)) (match lookup (store root name) d with Some _ => [] | None => mkdir_all (store root name) d end ++ [OWrite (join_path (store root name) (last (h :: r) [])) b]));
      [apply Forall_app; split; [destruct (lookup (store root name) d); [constructor|now apply mkdir_all_below]|constructor; [|constructor]; cbn [op_path]; apply segment_below with [lit "plugins"; name]; [exact SG|unfold store; now rewrite <- app_assoc|discriminate]]|]);
    pose proof (run_ops_outside _ _ F (fs name src) d q N1) as H; destruct (run_ops _ _ d) as [d1 [|]]; exact H.
  all: pose proof (fetch_inside L (fs name src) root name src d T1 T2 R q N1) as F; destruct (fetch L (fs name src) root (store root name) src d) as [d2 ok]; cbn [fst] in F; destruct ok; [|exact F].
  all: destruct (lookup (store root name) d2) as [e|]; [|exact F]; destruct (find_project L name (store root name) e) as [p|] eqn:FP; [|exact F]; apply find_below in FP.
  all: rewrite <- F; apply (build_below L p d2 T3); intros A; apply N1; apply above_trans with p; [apply above_trans with (store root name); assumption|exact A].
Qed.
Lemma sources_keep js ld name (Inv : ent -> Prop) srcs : (forall s d, In s srcs -> Inv d -> Inv (fst (ld name s d))) -> forall d, Inv d -> Inv (fst (load_sources js ld name srcs d)).
Proof.
  induction srcs as [|s srcs IH]; intros H d I; [exact I|]. cbn [load_sources]. assert (IH' := IH (fun s' d' J => H s' d' (or_intror J))). destruct (skip_source js s); [now apply IH'|].
  specialize (H s d (or_introl eq_refl) I). destruct (ld name s d) as [d1 [ps| |]]; [exact H|now apply IH'|exact H].
Qed.
Lemma plugins_keep js ld (Inv : ent -> Prop) deps : (forall name s d, source_of deps name s -> Inv d -> Inv (fst (ld name s d))) -> forall d, Inv d -> Inv (fst (load_plugins js ld deps d)).
Proof.
  induction deps as [|[name src] deps IH]; intros H d I; [exact I|]. cbn [load_plugins].
  assert (IH' : forall d, Inv d -> Inv (fst (load_plugins js ld deps d))) by (apply IH; intros n s d0 (h & r & A & B); apply H; exists h, r; split; [now right|exact B]).
  pose proof (split_joined 59%N src) as J. pose proof (split_char_spec 59%N src) as F. destruct (split_char 59%N src) as [h r]. destruct F as [F1 F2].
  assert (K : Inv (fst (load_sources js ld name (h :: r) d))) by (apply sources_keep; [|exact I]; intros s d0 S; apply H; exists h, r; rewrite <- J; split; [now left|]; now repeat split).
  destruct (load_sources js ld name (h :: r) d) as [d1 [ps| |]]; try exact K. specialize (IH' d1 K). destruct (load_plugins js ld deps d1) as [d2 [ps'| |]]; exact IH'.
Qed.
Lemma load_inside L fs root deps d d' x : tidy L -> what root d = KDir -> (forall name src, In (name, src) deps -> plain name) ->
  (forall name s, source_of deps name s -> ~ above (join_path root s) root) ->
  load_plugins (lo_js L) (load_from_source L fs root) deps d = (d', x) ->
  forall q, ~ above (root ++ [lit "_build"]) q -> (forall name s, source_of deps name s -> ~ above (join_path root s) q) -> what q d' = what q d.
Proof.
  intros T R P NR E q N1 N2.
  pose (Q := fun q => ~ above (root ++ [lit "_build"]) q /\ forall name s, source_of deps name s -> ~ above (join_path root s) q).
  assert (QR : Q root). { split; [|exact NR]. intros [r A]. apply (f_equal (@length text)) in A. rewrite !app_length in A. cbn in A. lia. }
  pose proof (plugins_keep (lo_js L) (load_from_source L fs root) (fun e => forall q, Q q -> what q e = what q d) deps) as K.
  specialize (K ltac:(intros name s e S I q0 Q0; rewrite <- (I q0 Q0); apply source_inside; [exact T|destruct S as (h & r & S & _); now apply P in S|rewrite (I root QR); exact R|now destruct Q0|now destruct Q0 as [_ Q0]; apply Q0 with name]) d (fun q _ => eq_refl)).
  rewrite E in K. apply K. now split.
Qed.

(** ** Local sources *)
Lemma meant_join root src p : meant root src p -> join_path root src = p.
Proof.
  intros M. pose proof (output_meant (Context (stuart_new (Config [] None false false false) []) [] [] [] root src) p) as O. unfold output_dir in O. cbn [cx_dir cx_output] in O. now apply O.
Qed.
Lemma local_same L L' fs fs' root name src d : same_local L L' -> local root src d -> load_from_source L' fs' root name src d = load_from_source L fs root name src d.
Proof.
  intros (E1 & E2 & E3 & E4 & E5) (p & M & C). apply meant_join in M. unfold load_from_source. rewrite M.
  assert (BL : build_and_load L' p d = build_and_load L p d) by (unfold build_and_load, project_name; now rewrite E2, E3, E4).
  assert (LP : load_path L' p d = load_path L p d) by (unfold load_path; now rewrite E1, E4, E5).
  unfold what in C. destruct C as [[b C]|C].
  - destruct (lookup p d) as [[b0|l|]|]; try discriminate. now rewrite LP.
  - destruct (lookup p d) as [[b0|l|]|]; [now rewrite LP| | |]; (destruct (lookup (p ++ [lit "Cargo.toml"]) d); [exact BL|now destruct C]).
Qed.
Lemma file_source L fs root name src d p b : meant root src p -> what p d = KFile b -> exists x, load_from_source L fs root name src d = (d, x).
Proof.
  intros M W. apply meant_join in M. unfold load_from_source. rewrite M. unfold what in W. destruct (lookup p d) as [[b0|l|]|]; try discriminate. eexists. reflexivity.
Qed.

(** ** Fetched sources *)
Lemma not_local root src d : ~ local root src d -> (forall b, lookup (join_path root src) d <> Some (EFile b)) /\ lookup (join_path root src ++ [lit "Cargo.toml"]) d = None.
Proof.
  intros N. assert (M : meant root src (join_path root src)). { pose proof (output_meant (Context (stuart_new (Config [] None false false false) []) [] [] [] root src) (join_path root src)) as O. now apply O. }
  split.
  - intros b E. apply N. exists (join_path root src). split; [exact M|]. left. exists b. unfold what. now rewrite E.
  - destruct (lookup _ d) as [e|] eqn:E; [|reflexivity]. exfalso. apply N. exists (join_path root src). split; [exact M|]. right. unfold what. rewrite E. destruct e; discriminate.
Qed.
Lemma not_local_case {A} (x : option ent) (y : option ent) (f g : A) (h : ent -> A) : (forall b, x <> Some (EFile b)) -> y = None ->
  match x, y with Some (EFile _), _ => f | _, Some _ => h EOther | _, None => g end = g.
Proof. intros N ->. destruct x as [[b| |]|]; try reflexivity. now destruct (N b). Qed.
Lemma split_after seg : ~ In c_slash seg -> forall a, exists h r, split_char c_slash (a ++ c_slash :: seg) = (h, r ++ [seg]).
Proof.
  intros NS. induction a as [|c a (h & r & IH)]; cbn [app split_char].
  - rewrite (split_char_nil c_slash seg NS). rewrite N.eqb_refl. now exists [], [].
  - rewrite IH. destruct (N.eqb c c_slash); [now exists [], (h :: r)|now exists (c :: h), r].
Qed.
Lemma segment_of src seg : last_segment src seg -> match split_char c_slash src with (h, r) => last (h :: r) [] = seg end.
Proof.
  intros [NS [->|[a ->]]]; [now rewrite (split_char_nil c_slash seg NS)|]. destruct (split_after seg NS a) as (h & r & E). change ([c_slash] ++ seg) with (c_slash :: seg). rewrite E. exact (last_last (h :: r) seg []).
Qed.
Lemma run_ops_app f a : forall d b d', run_ops f (a ++ b) d = (d', true) -> exists f' d1, run_ops f' b d1 = (d', true).
Proof.
  revert f. induction a as [|o a IH]; intros f d b d' R; [now exists f, d|]. cbn [app] in R. apply run_ops_cons in R. destruct R as (f' & d1 & _ & R). now apply IH in R.
Qed.
Lemma downloaded L fs root name src seg b d d' x : plain name -> plain seg -> last_segment src seg -> ~ local root src d -> lo_remote L src = false -> lo_get L src = Some b ->
  load_from_source L fs root name src d = (d', x) -> x <> LErr -> what (store root name ++ [seg]) d' = KFile b /\ x = load_path L (store root name ++ [seg]) d'.
Proof.
  intros P PS LS NL R G E NE. apply not_local in NL. destruct NL as [N1 N2]. apply segment_of in LS. unfold load_from_source in E. rewrite N2, R, G, (store_path root name P) in E.
  destruct (split_char c_slash src) as [h r]. rewrite LS, (join_plain _ _ PS) in E.
  assert (E' : match run_ops (fs name src) (match lookup (store root name) d with Some _ => [] | None => mkdir_all (store root name) d end ++ [OWrite (store root name ++ [seg]) b]) d with (d1, true) => (d1, load_path L (store root name ++ [seg]) d1) | (d1, false) => (d1, LErr) end = (d', x)).
  { destruct (lookup (join_path root src) d) as [[b0|l|]|]; [now destruct (N1 b0)|exact E|exact E|exact E]. }
  clear E. destruct (run_ops _ _ d) as [d1 ok] eqn:RO. destruct ok; [|injection E' as _ <-; contradiction]. injection E' as <- <-. split; [|reflexivity].
  apply run_ops_app in RO. destruct RO as (f' & d2 & RO). apply run_ops_cons in RO. destruct RO as (f2 & d3 & RO & R2). cbn in R2. injection R2 as ->.
  destruct (write_effect _ _ _ _ RO) as [_ W]. rewrite W. now destruct (path_eq _ _).
Qed.
Lemma prefixes_last p : exists l, prefixes p = l ++ [p] /\ forall q, In q l -> above q p.
Proof.
  induction p as [|c p (l & E & A)]; cbn [prefixes]; [exists []; split; [reflexivity|intros q []]|]. rewrite E, map_app. exists ([] :: map (cons c) l). split; [reflexivity|].
  intros q [<-|I]; [now exists (c :: p)|]. apply in_map_iff in I. destruct I as (r & <- & I). apply above_cons. split; [reflexivity|]. now apply A.
Qed.
Lemma mkdir_all_made p d f d1 : run_ops f (mkdir_all p d) d = (d1, true) -> what p d1 = KDir.
Proof.
  intros R. unfold mkdir_all in R. destruct (prefixes_last p) as (l & E & A). rewrite E, filter_app, map_app in R. cbn [filter] in R. destruct (is_edir (lookup p d)) eqn:ED; cbn [negb map] in R.
  - assert (F : filter (fun q => negb (is_edir (lookup q d))) l = []).
    { apply is_edir_spec in ED. change (what p d = KDir) in ED. clear R E. induction l as [|q l IH]; [reflexivity|]. cbn [filter]. destruct (A q (or_introl eq_refl)) as [r ->].
      assert (Q : is_edir (lookup q d) = true) by (apply is_edir_spec; now apply (dir_above q r)). rewrite Q. cbn [negb]. apply IH. intros x I. apply A. now right. }
    rewrite F in R. cbn in R. injection R as <-. now apply is_edir_spec in ED.
  - apply run_ops_app in R. destruct R as (f' & d2 & R). apply run_ops_cons in R. destruct R as (f2 & d3 & R & R2). cbn in R2. injection R2 as ->.
    cbn [run_op] in R. unfold mkdir in R. destruct (lookup p d2) eqn:L; [discriminate|]. destruct (is_edir (lookup (parent p) d2)) eqn:ED2; [|discriminate].
    assert (d1 = update p (Some (EDir [])) d2) by congruence. subst d1. assert (NE : p <> []) by (intros ->; discriminate L). apply is_edir_some in ED2. destruct ED2 as [l2 ED2]. unfold what. now rewrite (update_at p (EDir []) d2 l2).
Qed.
Lemma package_spec L p d n : package L p d n <-> project_name L (lookup (p ++ [lit "Cargo.toml"]) d) = Some n.
Proof.
  unfold package, project_name, what. split.
  - intros (b & t & W & U & N). destruct (lookup _ d) as [[b0| |]|]; try discriminate. cbn in W. injection W as ->. apply decoding in U. now rewrite U.
  - destruct (lookup _ d) as [[b| |]|]; try discriminate. destruct (from_utf8 b) as [t|] eqn:U; [|discriminate]. intros N. apply decoding in U. exists b, t. now repeat split.
Qed.
Lemma library_path p n : ~ In c_slash n -> join_path (p ++ [lit "target"; lit "release"]) (lit "lib" ++ n ++ lit ".so") = library p n.
Proof.
  intros NS. rewrite join_plain; [unfold library; now rewrite <- app_assoc|]. split; [discriminate|]. split; [discriminate|]. split; [discriminate|].
  intros I. apply in_app_iff in I. destruct I as [I|I]; [vm_compute in I; intuition discriminate|]. apply in_app_iff in I. destruct I as [I|I]; [contradiction|vm_compute in I; intuition discriminate].
Qed.
Lemma built L p d d' x : build_and_load L p d = (d', x) -> x <> LErr -> lo_cargo L p d = (d', true) /\
  ((x = LPanic /\ forall n, ~ package L p d' n) \/ exists n pl, package L p d' n /\ lo_binary L (join_path (p ++ [lit "target"; lit "release"]) (lit "lib" ++ n ++ lit ".so")) d' = Some pl /\ x = LOk [pl]).
Proof.
  unfold build_and_load. intros E NE. destruct (lo_cargo L p d) as [d1 [|]]; [|injection E as _ <-; contradiction].
  destruct (project_name L _) as [n|] eqn:PN; injection E as <- <-; (split; [reflexivity|]).
  - apply package_spec in PN. right. destruct (lo_binary _ _ _) as [pl|] eqn:B; [|now destruct NE]. exists n, pl. now repeat split.
  - left. split; [reflexivity|]. intros n H. apply package_spec in H. congruence.
Qed.
Lemma fetched L fs root name src d d2 : what root d = KDir -> fetch L fs root (store root name) src d = (d2, true) -> fetches L root name src d d2.
Proof.
  intros R. unfold fetch. destruct (lookup (store root name) d) as [e|] eqn:LS.
  - intros E. apply fe_pull; [unfold what; rewrite LS; destruct e; discriminate|exact E].
  - pose proof (run_ops_outside _ _ (mkdir_all_below root (lit "_build") [lit "plugins"] d R) fs d) as H. destruct (run_ops _ _ d) as [d1 ok] eqn:RO. destruct ok; [|discriminate].
    intros E. apply fe_clone with d1; [unfold what; now rewrite LS|exact H|now apply mkdir_all_made in RO|exact E].
Qed.
Lemma remote_case L fs root name src d : plain name -> ~ local root src d -> lo_remote L src = true -> load_from_source L fs root name src d =
  match fetch L (fs name src) root (store root name) src d with
  | (d2, false) => (d2, LErr)
  | (d2, true) => match lookup (store root name) d2 with None => (d2, LErr) | Some e => match find_project L name (store root name) e with None => (d2, LErr) | Some p => build_and_load L p d2 end end
  end.
Proof.
  intros P NL R. apply not_local in NL. destruct NL as [N1 N2]. unfold load_from_source. rewrite N2, R, (store_path root name P). destruct (lookup (join_path root src) d) as [[b0|l|]|]; [now destruct (N1 b0)|reflexivity|reflexivity|reflexivity].
Qed.
Lemma lookup_distinct p : forall d e, ent_distinct d -> lookup p d = Some e -> ent_distinct e.
Proof.
  induction p as [|c p IH]; intros d e D L; [cbn in L; now injection L as <-|]. destruct d as [b|l|]; try discriminate. cbn [lookup] in L. destruct (assoc c l) as [e0|] eqn:A; [|discriminate].
  apply (IH e0); [now apply distinct_entry in A|exact L].
Qed.
Lemma package_below L p q d e n : lookup p d = Some e -> (package L (p ++ q) d n <-> package L q e n).
Proof. intros LK. unfold package, what. rewrite <- app_assoc, lookup_app, LK. reflexivity. Qed.
Lemma from_repository L fs root name src d d' ps : plain name -> ~ local root src d -> lo_remote L src = true -> what root d = KDir ->
  (forall t n, lo_package L t = Some n -> ~ In c_slash n) -> (forall d2, fetches L root name src d d2 -> ent_distinct d2) ->
  load_from_source L fs root name src d = (d', LOk ps) ->
  exists d2 r n pl, fetches L root name src d d2 /\ package L (store root name ++ r) d2 name /\ lo_cargo L (store root name ++ r) d2 = (d', true) /\
    package L (store root name ++ r) d' n /\ lo_binary L (library (store root name ++ r) n) d' = Some pl /\ ps = [pl].
Proof.
  intros P NL R WR NS FD E. rewrite (remote_case _ _ _ _ _ _ P NL R) in E. destruct (fetch L (fs name src) root (store root name) src d) as [d2 ok] eqn:F. destruct ok; [|discriminate].
  apply (fetched _ _ _ _ _ _ _ WR) in F. specialize (FD d2 F). destruct (lookup (store root name) d2) as [e|] eqn:LE; [|discriminate]. destruct (find_project L name (store root name) e) as [p|] eqn:FP; [|discriminate].
  apply find_sound in FP; [|now apply (lookup_distinct (store root name) d2)]. destruct FP as (r & -> & PK). apply built in E; [|discriminate]. destruct E as (C & [[X _]|(n & pl & PN & B & X)]); [discriminate|]. injection X as ->.
  exists d2, r, n, pl. split; [exact F|]. split; [now apply (package_below L _ _ _ e)|]. split; [exact C|]. split; [exact PN|]. split; [|reflexivity]. rewrite library_path in B; [exact B|]. destruct PN as (b & t & _ & _ & PN). now apply NS in PN.
Qed.
Lemma not_in_repository L fs root name src d d2 r : plain name -> ~ local root src d -> lo_remote L src = true -> fetch L (fs name src) root (store root name) src d = (d2, true) -> package L (store root name ++ r) d2 name ->
  exists p, load_from_source L fs root name src d = build_and_load L p d2.
Proof.
  intros P NL R F PK. rewrite (remote_case _ _ _ _ _ _ P NL R), F. destruct (lookup (store root name) d2) as [e|] eqn:LE.
  - apply (package_below L _ _ _ e _ LE) in PK. pose proof (find_complete L name e (store root name) r PK) as N. destruct (find_project _ _ _ _) as [p|]; [|contradiction]. now exists p.
  - destruct PK as (b & t & W & _). unfold what in W. rewrite <- app_assoc, lookup_app, LE in W. discriminate.
Qed.
Lemma ext_ending n e : extension n = Some e -> exists s, n = s ++ [c_dot] ++ e.
Proof. intros E. apply extension_spec in E. unfold has_ext in E. firstorder. Qed.
Lemma join_last root src seg : plain seg -> last_segment src seg -> last (join_path root src) [] = seg.
Proof.
  intros P LS. apply segment_of in LS. unfold join_path. destruct (split_char c_slash src) as [h r]. generalize (if starts_with [c_slash] src then [] else root) as p. revert LS.
  generalize (h :: r) as l. intros l LS p. destruct l as [|x l _] using rev_ind; [exfalso; cbn in LS; subst; now destruct P|]. rewrite last_last in LS. subst x. rewrite fold_left_app. cbn [fold_left].
  destruct P as (N1 & N2 & N3 & _). unfold step_component. rewrite (proj2 (text_eqb_neq seg []) N1), (proj2 (text_eqb_neq seg [c_dot]) N2), (proj2 (text_eqb_neq seg [c_dot; c_dot]) N3). apply last_last.
Qed.
Lemma load_path_one L p d ps src : last_segment src (last p []) -> supported (lo_js L) src -> load_path L p d = LOk ps -> exists pl, ps = [pl].
Proof.
  intros LS SU. unfold load_path. destruct (_ || _) eqn:X.
  - destruct (lo_js L) eqn:J; [destruct (lo_script L p d) as [pl| | |]; try discriminate; intros E; injection E as <-; now exists pl|]. exfalso.
    match type of X with context [extension ?y] => destruct (extension y) as [e|] eqn:E end; [|discriminate X]. apply ext_ending in E. destruct E as [s E].
    assert (EN : ending src (lit ".js") \/ ending src (lit ".mjs")).
    { destruct LS as [_ LS]. match type of E with ?y = _ => change (src = y \/ exists a, src = a ++ [c_slash] ++ y) in LS end. rewrite E in LS. apply orb_true_iff in X. destruct X as [X|X]; apply text_eqb_eq in X; subst e; [left|right]; (destruct LS as [->|[a ->]]; [now exists s|exists (a ++ [c_slash] ++ s); now rewrite <- !app_assoc]). }
    destruct SU as [_ [SU|[S1 S2]]]; [congruence|]. now destruct EN.
  - destruct (lo_binary L p d) as [pl|]; [|discriminate]. intros E. injection E as <-. now exists pl.
Qed.
Lemma one_plugin L fs root name src seg d d' ps : plain name -> plain seg -> last_segment src seg -> supported (lo_js L) src ->
  load_from_source L fs root name src d = (d', LOk ps) -> exists pl, ps = [pl].
Proof.
  intros P PS LS SU E. unfold load_from_source in E. rewrite (store_path root name P) in E.
  assert (B : forall p d, build_and_load L p d = (d', LOk ps) -> exists pl, ps = [pl]) by (intros p d0 H; apply built in H; [|discriminate]; destruct H as (_ & [[H _]|(n & pl & _ & _ & H)]); [discriminate|]; injection H as ->; now exists pl).
  assert (LJ : last (join_path root src) [] = seg) by (now apply join_last).
  destruct (lookup (join_path root src) d) as [[b|l|]|].
  1: injection E as _ E; apply (load_path_one L _ _ _ src) in E; [exact E|exact (eq_ind_r (last_segment src) LS LJ)|exact SU].
  all: destruct (lookup (join_path root src ++ [lit "Cargo.toml"]) d); [now apply B in E|]; destruct (lo_remote L src).
  1,3,5: destruct (fetch L (fs name src) root (store root name) src d) as [d2 [|]]; [|discriminate]; destruct (lookup (store root name) d2) as [e|]; [|discriminate]; destruct (find_project L name (store root name) e) as [p|]; [|discriminate]; now apply B in E.
  all: destruct (lo_get L src) as [b|]; [|discriminate]; assert (SG := segment_of _ _ LS); destruct (split_char c_slash src) as [h r]; rewrite SG, (join_plain _ _ PS) in E;
    destruct (run_ops _ _ d) as [d1 [|]]; [|discriminate]; injection E as _ E; apply (load_path_one L _ _ _ src) in E; [exact E|exact (eq_ind_r (last_segment src) LS (last_last (store root name) seg []))|exact SU].
Qed.
Lemma source_panics L fs root name src d d' : load_from_source L fs root name src d = (d', LPanic) -> (exists p d1, lo_cargo L p d1 = (d', true) /\ forall n, ~ package L p d' n) \/ exists p, script_crashes L p d'.
Proof.
  intros E. unfold load_from_source in E.
  assert (B : forall p d, build_and_load L p d = (d', LPanic) -> exists p d1, lo_cargo L p d1 = (d', true) /\ forall n, ~ package L p d' n).
  { intros p d0 H. apply built in H; [|discriminate]. destruct H as (C & [[_ H]|(n & pl & _ & _ & H)]); [|discriminate]. exists p, d0. now split. }
  assert (NL : forall p d, load_path L p d = LPanic -> script_crashes L p d).
  { intros p d0. unfold load_path, script_crashes. destruct (_ || _); [destruct (lo_js L); [|discriminate]; destruct (lo_script L p d0); try discriminate; (intros _; split; [reflexivity|split; discriminate])|destruct (lo_binary L p d0); discriminate]. }
  destruct (lookup (join_path root src) d) as [[b|l|]|].
  1: injection E as E1 E; subst; right; eexists; exact (NL _ _ E).
  all: destruct (lookup (join_path root src ++ [lit "Cargo.toml"]) d); [left; now apply B in E|]; destruct (lo_remote L src).
  1,3,5: destruct (fetch L (fs name src) root _ src d) as [d2 [|]]; [|discriminate]; destruct (lookup _ d2) as [e|]; [|discriminate]; destruct (find_project L name _ e) as [p|]; [|discriminate]; left; now apply B in E.
  all: destruct (lo_get L src) as [b|]; [|discriminate]; destruct (split_char c_slash src) as [h r];
    destruct (run_ops _ _ d) as [d1 [|]]; [|discriminate]; injection E as E1 E; subst; right; eexists; exact (NL _ _ E).
Qed.
Lemma load_panics L fs root deps d d' : load_plugins (lo_js L) (load_from_source L fs root) deps d = (d', LPanic) -> (exists p d1, lo_cargo L p d1 = (d', true) /\ forall n, ~ package L p d' n) \/ exists p, script_crashes L p d'.
Proof.
  intros E. apply plugins_stopped in E; [|discriminate]. destruct E as (a & [name src] & b & d1 & ps & -> & _ & F). inversion F as [name0 h r a0 s b0 d0 d2 d3 x N FA E T S LD NE|]; subst. now apply source_panics in LD.
Qed.
Lemma local_built L fs root name src p d d' n pl : meant root src p -> (forall b, what p d <> KFile b) -> what (p ++ [lit "Cargo.toml"]) d <> KNone -> lo_cargo L p d = (d', true) ->
  package L p d' n -> ~ In c_slash n -> ~ In 45%N n -> lo_binary L (library p (crate_name n)) d' = Some pl -> load_from_source L fs root name src d = (d', LOk [pl]).
Proof.
  intros M NF CT C PK NS NH B. apply meant_join in M. assert (CN : crate_name n = n).
  { unfold crate_name. clear - NH. induction n as [|c n IH]; [reflexivity|]. cbn [map]. rewrite IH by (intros I; apply NH; now right). destruct (N.eqb_spec c 45) as [->|]; [exfalso; apply NH; now left|reflexivity]. }
  rewrite CN in B. assert (BL : build_and_load L p d = (d', LOk [pl])). { unfold build_and_load. rewrite C. apply package_spec in PK. rewrite PK, (library_path p n NS), B. reflexivity. }
  unfold load_from_source. rewrite M. unfold what in NF, CT. destruct (lookup p d) as [[b|l|]|]; [now destruct (NF b)| | |]; (destruct (lookup (p ++ [lit "Cargo.toml"]) d); [exact BL|now destruct CT]).
Qed.
