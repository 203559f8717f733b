(** KeysCmd.v -- what is written to disk for sources with the same fields (C105). *)

From Coq Require Import String List NArith ZArith Bool Lia Permutation.
From Verif Require Import Text TextFacts Utf8 Json Base Syntax Parse Tree Interp Build Disk Cli Load Report Main Shipped.
From Verif Require Import SpecUtf8 SpecScope SpecTree SpecSite SpecDisk SpecAlike SpecProject SpecMain SpecSays SpecKeys.
From Verif Require Import TreeFacts ScopeFacts AlikeFacts DiskFacts SaysFacts AlterFacts KeysFacts.
Import ListNotations.

Lemma fields_sibs h content e : forall name e' k, above content (k ++ [name]) -> sources_fields h name e e' -> sibs (data_or_post content) (k ++ [name]) e e'.
Proof.
  induction e as [b| |l IH] using ent_ind2; intros name e' k A S; inversion S as [? ? b' F|? ? l' F|]; subst; [|constructor|].
  - destruct F as [b|b b' t t' (s & -> & _) _ _ _|b b' t t' fm fm' body (s & -> & _) _ _ _ _ _]; [constructor| |]; apply sbs_data; exists k, s; [now left|right; now split].
  - constructor. clear S. induction F as [|x x' l l' [N Q] F IHl]; constructor; inversion IH; subst; auto. split; auto. apply H1; auto. destruct A as (z & Z). exists (z ++ [fst x]). now rewrite Z, <- !app_assoc.
Qed.
Definition any_data (q : path) : Prop := exists k s, q = k ++ [s ++ lit ".json"].
Lemma fields_outp (P : path -> Prop) o : (forall k s, P (k ++ [s ++ lit ".json"])) -> forall o', output_fields o o' -> outp P o o'.
Proof.
  intros A. induction o as [name b pc meta src|name ch src IH] using node_ind2; intros o' L; inversion L as [? ? b' ? ? meta' ? X M|? ? ch' ? H]; subst; constructor.
  - destruct X as [X|X]; [now left|]. right; right. split; [now apply ext_data|exact A].
  - destruct M as [m|k v v' V]; [now left|]. right. split; [|exact A]. eauto.
  - clear L. induction H; constructor; inversion IH; subst; auto.
Qed.
Lemma recur_hidden cf o : cf_data cf = false -> forall p o', output_fields o o' -> save_recur cf p o' = save_recur cf p o.
Proof.
  intros D. induction o as [name b pc meta src|name ch src IH] using node_ind2; intros p o' L; inversion L as [? ? b' ? ? meta' ? X M|? ? ch' ? H]; subst; cbn [save_recur].
  - destruct X as [->|X]; [reflexivity|]. destruct (ext_data _ X) as (s & ->). rewrite D. replace (ends_with (lit ".json") (s ++ lit ".json")) with true; [|symmetry; apply ends_with_spec; now exists s].
    now rewrite !andb_false_r.
  - f_equal. clear L. induction H as [|x x' ch ch' X H IHl]; cbn [flat_map]; auto. inversion IH; subst. f_equal; auto.
Qed.
Lemma fields_meta o : forall top o', output_fields o o' -> both eq same_value (metadata_recur top o) (metadata_recur top o').
Proof.
  induction o as [name b pc meta src|name ch src IH] using node_ind2; intros top o' L; inversion L as [? ? b' ? ? meta' ? X M|? ? ch' ? H]; subst; cbn [metadata_recur].
  - destruct M as [m|k v v' V]; [destruct m as [[]|]; cbn; try reflexivity; constructor|]. cbn [fold_left fst snd]. apply object_same. intros j.
    rewrite !assoc_set. destruct (text_eqb (lit "value") j); [exact V|apply opt_refl].
  - apply (both_bind _ (Forall2 same_value)).
    + apply (both_list _ output_fields); auto. intros x x' I X. rewrite Forall_forall in IH. now apply IH.
    + intros l l' F. destruct top; [now apply sv_array|]. apply object_same. intros j. cbn [assoc].
      destruct (text_eqb (lit "type") j); [apply opt_refl|]. destruct (text_eqb (lit "name") j); [apply opt_refl|]. destruct (text_eqb (lit "children") j); [now apply sv_array|exact I].
Qed.
Lemma fields_akin (P : path -> Prop) h osenv mode p name e e' st : (forall k s, P (k ++ [s ++ lit ".json"])) -> plugins_give orderless (st_plugins st) -> sources_fields h name e e' ->
  akin P (fst (build h osenv mode (SourceDir p name (Some e)) st)) (fst (build h osenv mode (SourceDir p name (Some e')) st)).
Proof.
  intros A PG S. destruct (fields_build h osenv mode p name e e' st PG S) as [_ B]. split; [now rewrite !kept_settings|].
  destruct (st_output (fst (build _ _ _ (SourceDir _ _ (Some e)) _))), (st_output (fst (build _ _ _ (SourceDir _ _ (Some e')) _))); cbn in B |- *; try contradiction; auto. now apply fields_outp.
Qed.
Lemma fields_site h osenv mode p name e e' st out : plugins_give orderless (st_plugins st) -> sources_fields h name e e' ->
  st_output (fst (build h osenv mode (SourceDir p name (Some e)) st)) = Some out ->
  exists out', st_output (fst (build h osenv mode (SourceDir p name (Some e')) st)) = Some out' /\ output_fields out out'.
Proof.
  intros PG S O. destruct (fields_build h osenv mode p name e e' st PG S) as [_ Q]. rewrite O in Q. destruct (st_output (fst (build _ _ _ (SourceDir p name (Some e')) st))) as [out'|]; [|contradiction]. now exists out'.
Qed.
Lemma fields_save h osenv mode p name e e' st : plugins_give orderless (st_plugins st) -> sources_fields h name e e' ->
  let b := fst (build h osenv mode (SourceDir p name (Some e)) st) in let b' := fst (build h osenv mode (SourceDir p name (Some e')) st) in
  forall f q d, snd (save f b' q d) = snd (save f b q d) /\ same_but_data (fst (save f b q d)) (fst (save f b' q d)) /\
    (cf_data (st_config st) = false -> save f b' q d = save f b q d).
Proof.
  intros PG S. cbv zeta. intros f q d. pose proof (fields_akin any_data h osenv mode p name e e' st ltac:(intros k s; now exists k, s) PG S) as A.
  destruct (save_akin any_data f _ _ q d d A (sibs_refl any_data d [])) as [A1 A2]. split; [exact A2|]. split.
  - intros k. destruct (sibs_what any_data _ _ A1 k) as [X|[(dir & s & ->) (x & x' & X & X')]]; [now left|]. right. now exists dir, s, x, x'.
  - intros D. unfold save. rewrite !kept_settings. destruct (fields_build h osenv mode p name e e' st PG S) as [_ Q].
    destruct (st_output (fst (build _ _ _ (SourceDir p name (Some e)) st))) as [o|], (st_output (fst (build _ _ _ (SourceDir p name (Some e')) st))) as [o'|]; cbn in Q; try contradiction; [|reflexivity].
    destruct Q as [|nm ch ch' src H]; cbn [save_ops]; [reflexivity|]. replace (flat_map (save_recur (st_config st) q) ch') with (flat_map (save_recur (st_config st) q) ch); [reflexivity|].
    clear A A1 A2. induction H as [|x x' ch ch' X H IHl]; cbn [flat_map]; auto. now rewrite (recur_hidden _ _ D _ _ X), IHl.
Qed.
Lemma fields_metadata h osenv mode p name e e' st : plugins_give orderless (st_plugins st) -> sources_fields h name e e' ->
  both eq same_value (metadata_value (fst (build h osenv mode (SourceDir p name (Some e)) st))) (metadata_value (fst (build h osenv mode (SourceDir p name (Some e')) st))).
Proof.
  intros PG S. unfold metadata_value. rewrite !kept_settings. destruct (negb _); [reflexivity|]. destruct (fields_build h osenv mode p name e e' st PG S) as [_ Q].
  destruct (st_output (fst (build _ _ _ (SourceDir p name (Some e)) st))) as [o|], (st_output (fst (build _ _ _ (SourceDir p name (Some e')) st))) as [o'|]; cbn in Q; try contradiction; [|reflexivity].
  apply (both_bind _ same_value); [now apply fields_meta|]. intros v v' V. apply object_same. intros j. cbn [assoc].
  destruct (text_eqb (lit "name") j); [apply opt_refl|]. destruct (text_eqb (lit "author") j); [apply opt_refl|]. destruct (text_eqb (lit "data") j); [exact V|exact I].
Qed.
Lemma fields_command w lv manifest output dir name r deps ps d d' e e' : meant (w_cwd w) manifest (dir ++ [name]) -> manifest_says w (dir ++ [name]) d r deps -> name <> lit "content" ->
  loads_all (lo_js (w_loader w)) (load_from_source (w_loader w) (w_load_faults w) dir) deps d d ps -> loads_all (lo_js (w_loader w)) (load_from_source (w_loader w) (w_load_faults w) dir) deps d' d' ps ->
  what (dir ++ [lit "scripts"]) d = KNone -> edited (dir ++ [lit "content"]) e e' d d' -> plugins_give orderless ps -> sources_fields (w_host w) (lit "content") e e' ->
  exists d1 d1' x x' items items', main w lv (CmdBuild manifest output) d = (d1, x, items) /\ main w lv (CmdBuild manifest output) d' = (d1', x', items') /\ same_end x x' items items' /\
    forall q, what q d1' = what q d1 \/ (data_or_post (dir ++ [lit "content"]) q /\ exists b b', what q d1 = KFile b /\ what q d1' = KFile b').
Proof.
  intros M MS NC L L' NS Ed PG S. assert (A : forall k s, data_or_post (dir ++ [lit "content"]) (k ++ [s ++ lit ".json"])) by (intros k s; exists k, s; now left).
  destruct (main_akin (data_or_post (dir ++ [lit "content"])) w lv manifest output dir name r deps ps d d' e e' M MS NC L L' NS Ed) as (d1 & d1' & x & x' & it & it' & X & X' & E & Z).
  - apply (fields_sibs (w_host w)); auto. exists []. now rewrite app_nil_r.
  - now apply fields_akin.
  - exact (proj1 (fields_build (w_host w) (w_osenv w) (lit "production") (dir ++ [lit "content"]) (lit "content") e e' (stuart_new (to_config r) ps) PG S)).
  - exists d1, d1', x, x', it, it'. split; [exact X|]. split; [exact X'|]. split; [exact E|]. now apply sibs_what.
Qed.

(** ** What it means that values are the same *)
Lemma permuted_same l l' : NoDup (map fst l) -> Permutation l l' -> same_value (VObj l) (VObj l').
Proof.
  intros N P. assert (N' : NoDup (map fst l')) by (now apply (Permutation_NoDup (Permutation_map fst P))).
  assert (G : forall (a b : list (text * value)) k v, NoDup (map fst b) -> (forall x, In x a -> In x b) -> first_binding k a v -> first_binding k b v).
  { intros a b k v ND I (l1 & l2 & -> & _). assert (J : In (k, v) b) by (apply I; apply in_or_app; right; now left). apply in_split in J as (b1 & b2 & ->). exists b1, b2. split; [reflexivity|].
    rewrite map_app in ND. cbn in ND. apply NoDup_remove_2 in ND. intros Q. apply ND. apply in_or_app. now left. }
  apply sv_object; intros k v B; exists v; (split; [|constructor]).
  - apply (G l l'); auto. intros x. now apply Permutation_in.
  - apply (G l' l); auto. intros x. apply Permutation_in. now symmetry.
Qed.
Lemma permuted_fields l l' : NoDup (map fst l) -> Permutation l l' -> same_fields l l'.
Proof.
  intros N P. assert (N' : NoDup (map fst l')) by (now apply (Permutation_NoDup (Permutation_map fst P))).
  assert (G : forall (a b : list (text * text)) k v, NoDup (map fst b) -> (forall x, In x a -> In x b) -> first_binding k a v -> first_binding k b v).
  { intros a b k v ND I (l1 & l2 & -> & _). assert (J : In (k, v) b) by (apply I; apply in_or_app; right; now left). apply in_split in J as (b1 & b2 & ->). exists b1, b2. split; [reflexivity|].
    rewrite map_app in ND. cbn in ND. apply NoDup_remove_2 in ND. intros Q. apply ND. apply in_or_app. now left. }
  intros k v. split; [apply (G l l')|apply (G l' l)]; auto; intros x; apply Permutation_in; auto. now symmetry.
Qed.
Lemma shipped_orderless o : plugins_give orderless [imgopt o; demo].
Proof.
  intros pl f raw g [<-|[<-|[]]]; cbn [pl_fns imgopt demo].
  - intros [].
  - intros [<-|[]]. cbn. destruct (rf_pos raw), (rf_named raw); try discriminate. intros E l s s' P. injection E as <-. cbn [pf_exec demo_fn].
    match goal with |- context [output ?b s] => pose proof (output_same b s s' P) as Q; destruct (output b s), (output b s'); cbn in Q |- *; try contradiction; subst; auto end.
Qed.
