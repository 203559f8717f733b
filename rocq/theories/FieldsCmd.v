(** FieldsCmd.v -- what is written to disk for sources that differ in no field that is asked for (C106). *)

From Coq Require Import String List NArith ZArith Bool Lia Permutation.
From Verif Require Import Text TextFacts Utf8 Json Base Syntax Parse Tree Interp Build Disk Cli Load Report Main Shipped.
From Verif Require Import SpecUtf8 SpecScope SpecTree SpecSite SpecBlame SpecDisk SpecAlike SpecProject SpecMain SpecSays SpecFields.
From Verif Require Import Utf8Facts TreeFacts ScopeFacts MarkdownFacts ReadsFacts GrammarFacts AlikeFacts DiskFacts SaysFacts AlterFacts FieldsFacts.
Import ListNotations.

Lemma fields_sibs (P0 : text -> Prop) h content e : forall name e' k, above content (k ++ [name]) -> sources_on P0 h name e e' -> sibs (data_or_post content) (k ++ [name]) e e'.
Proof.
  induction e as [b| |l IH] using ent_ind2; intros name e' k A S; inversion S as [? ? b' F|? ? l' F|]; subst; [|constructor|].
  - destruct F as [b|b b' t t' (s & -> & _) _ _ _|b b' t t' fm fm' body (s & -> & _) _ _ _ _ _]; [constructor| |]; apply sbs_data; exists k, s; [now left|right; now split].
  - constructor. clear S. induction F as [|x x' l l' [N Q] F IHl]; constructor; inversion IH; subst; auto. split; auto. apply H1; auto. destruct A as (z & Z). exists (z ++ [fst x]). now rewrite Z, <- !app_assoc.
Qed.
Definition any_data (q : path) : Prop := exists k s, q = k ++ [s ++ lit ".json"].
Lemma fields_outp (P : path -> Prop) o : (forall k s, P (k ++ [s ++ lit ".json"])) -> forall o', output_on o o' -> outp P o o'.
Proof.
  intros A. induction o as [name b pc meta src|name ch src IH] using node_ind2; intros o' L; inversion L as [? ? b' ? ? meta' ? X M|? ? ch' ? H]; subst; constructor.
  - destruct X as [X|X]; [now left|]. right; right. split; [now apply ext_data|exact A].
  - destruct M as [m|k v v']; [now left|]. right. split; [|exact A]. eauto.
  - clear L. induction H; constructor; inversion IH; subst; auto.
Qed.
Lemma recur_hidden cf o : cf_data cf = false -> forall p o', output_on o o' -> save_recur cf p o' = save_recur cf p o.
Proof.
  intros D. induction o as [name b pc meta src|name ch src IH] using node_ind2; intros p o' L; inversion L as [? ? b' ? ? meta' ? X M|? ? ch' ? H]; subst; cbn [save_recur].
  - destruct X as [->|X]; [reflexivity|]. destruct (ext_data _ X) as (s & ->). rewrite D. replace (ends_with (lit ".json") (s ++ lit ".json")) with true; [|symmetry; apply ends_with_spec; now exists s].
    now rewrite !andb_false_r.
  - f_equal. clear L. induction H as [|x x' ch ch' X H IHl]; cbn [flat_map]; auto. inversion IH; subst. f_equal; auto.
Qed.
Lemma fields_akin (P0 : text -> Prop) (P : path -> Prop) h osenv mode p name e e' st : (forall k s, P (k ++ [s ++ lit ".json"])) -> (forall k, asked h (st_plugins st) e k -> P0 k) -> plugins_give (heedless P0) (st_plugins st) -> sources_on P0 h name e e' ->
  akin P (fst (build h osenv mode (SourceDir p name (Some e)) st)) (fst (build h osenv mode (SourceDir p name (Some e')) st)).
Proof.
  intros A Ak PG S. destruct (fields_build P0 h osenv mode p name e e' st Ak PG S) as [_ B]. split; [now rewrite !kept_settings|].
  destruct (st_output (fst (build _ _ _ (SourceDir _ _ (Some e)) _))), (st_output (fst (build _ _ _ (SourceDir _ _ (Some e')) _))); cbn in B |- *; try contradiction; auto. now apply fields_outp.
Qed.
Lemma fields_site (P0 : text -> Prop) h osenv mode p name e e' st out : (forall k, asked h (st_plugins st) e k -> P0 k) -> plugins_give (heedless P0) (st_plugins st) -> sources_on P0 h name e e' ->
  st_output (fst (build h osenv mode (SourceDir p name (Some e)) st)) = Some out ->
  exists out', st_output (fst (build h osenv mode (SourceDir p name (Some e')) st)) = Some out' /\ output_on out out'.
Proof.
  intros Ak PG S O. destruct (fields_build P0 h osenv mode p name e e' st Ak PG S) as [_ Q]. rewrite O in Q. destruct (st_output (fst (build _ _ _ (SourceDir p name (Some e')) st))) as [out'|]; [|contradiction]. now exists out'.
Qed.
Lemma fields_save (P0 : text -> Prop) h osenv mode p name e e' st : (forall k, asked h (st_plugins st) e k -> P0 k) -> plugins_give (heedless P0) (st_plugins st) -> sources_on P0 h name e e' ->
  let b := fst (build h osenv mode (SourceDir p name (Some e)) st) in let b' := fst (build h osenv mode (SourceDir p name (Some e')) st) in
  forall f q d, snd (save f b' q d) = snd (save f b q d) /\ same_but_data (fst (save f b q d)) (fst (save f b' q d)) /\
    (cf_data (st_config st) = false -> save f b' q d = save f b q d).
Proof.
  intros Ak PG S. cbv zeta. intros f q d. pose proof (fields_akin P0 any_data h osenv mode p name e e' st ltac:(intros k s; now exists k, s) Ak PG S) as A.
  destruct (save_akin any_data f _ _ q d d A (sibs_refl any_data d [])) as [A1 A2]. split; [exact A2|]. split.
  - intros k. destruct (sibs_what any_data _ _ A1 k) as [X|[(dir & s & ->) (x & x' & X & X')]]; [now left|]. right. now exists dir, s, x, x'.
  - intros D. unfold save. rewrite !kept_settings. destruct (fields_build P0 h osenv mode p name e e' st Ak PG S) as [_ Q].
    destruct (st_output (fst (build _ _ _ (SourceDir p name (Some e)) st))) as [o|], (st_output (fst (build _ _ _ (SourceDir p name (Some e')) st))) as [o'|]; cbn in Q; try contradiction; [|reflexivity].
    destruct Q as [|nm ch ch' src H]; cbn [save_ops]; [reflexivity|]. replace (flat_map (save_recur (st_config st) q) ch') with (flat_map (save_recur (st_config st) q) ch); [reflexivity|].
    clear A A1 A2. induction H as [|x x' ch ch' X H IHl]; cbn [flat_map]; auto. now rewrite (recur_hidden _ _ D _ _ X), IHl.
Qed.
Lemma fields_command (P0 : text -> Prop) w lv manifest output dir name r deps ps d d' e e' : meant (w_cwd w) manifest (dir ++ [name]) -> manifest_says w (dir ++ [name]) d r deps -> name <> lit "content" ->
  loads_all (lo_js (w_loader w)) (load_from_source (w_loader w) (w_load_faults w) dir) deps d d ps -> loads_all (lo_js (w_loader w)) (load_from_source (w_loader w) (w_load_faults w) dir) deps d' d' ps ->
  what (dir ++ [lit "scripts"]) d = KNone -> edited (dir ++ [lit "content"]) e e' d d' -> (forall k, asked (w_host w) ps e k -> P0 k) -> plugins_give (heedless P0) ps -> sources_on P0 (w_host w) (lit "content") e e' ->
  exists d1 d1' x x' items items', main w lv (CmdBuild manifest output) d = (d1, x, items) /\ main w lv (CmdBuild manifest output) d' = (d1', x', items') /\ same_end x x' items items' /\
    forall q, what q d1' = what q d1 \/ (data_or_post (dir ++ [lit "content"]) q /\ exists b b', what q d1 = KFile b /\ what q d1' = KFile b').
Proof.
  intros M MS NC L L' NS Ed Ak PG S. assert (A : forall k s, data_or_post (dir ++ [lit "content"]) (k ++ [s ++ lit ".json"])) by (intros k s; exists k, s; now left).
  destruct (main_akin (data_or_post (dir ++ [lit "content"])) w lv manifest output dir name r deps ps d d' e e' M MS NC L L' NS Ed) as (d1 & d1' & x & x' & it & it' & X & X' & E & Z).
  - apply (fields_sibs P0 (w_host w)); auto. exists []. now rewrite app_nil_r.
  - now apply (fields_akin P0).
  - exact (proj1 (fields_build P0 (w_host w) (w_osenv w) (lit "production") (dir ++ [lit "content"]) (lit "content") e e' (stuart_new (to_config r) ps) Ak PG S)).
  - exists d1, d1', x, x', it, it'. split; [exact X|]. split; [exact X'|]. split; [exact E|]. now apply sibs_what.
Qed.

(** ** What it means that values differ in other fields *)
Lemma binding_added {A} k j (v y : A) l1 l2 : k <> j -> first_binding k (l1 ++ l2) v <-> first_binding k (l1 ++ (j, y) :: l2) v.
Proof.
  intros N. rewrite <- !assoc_iff. induction l1 as [|[i z] l1 IH]; cbn [app assoc]; [|now destruct (text_eqb i k)].
  destruct (text_eqb j k) eqn:E; [|reflexivity]. apply text_eqb_eq in E. congruence.
Qed.
Lemma added_value (P : text -> Prop) l1 l2 j y : ~ P j -> value_on P (VObj (l1 ++ l2)) (VObj (l1 ++ (j, y) :: l2)).
Proof.
  intros N. apply vo_object; intros k v Pk B; exists v; (split; [|constructor]); apply (binding_added k j v y l1 l2); auto; intros ->; contradiction.
Qed.
Lemma added_fields (P : text -> Prop) l1 l2 j y : ~ P j -> fields_on P (l1 ++ l2) (l1 ++ (j, y) :: l2).
Proof. intros N k v Pk. apply binding_added. intros ->; contradiction. Qed.
Lemma shipped_heedless P o : plugins_give (heedless P) [imgopt o; demo].
Proof.
  intros pl f raw g [<-|[<-|[]]]; cbn [pl_fns imgopt demo].
  - intros [].
  - intros [<-|[]]. cbn. destruct (rf_pos raw), (rf_named raw); try discriminate. intros E l s s' Sc. injection E as <-. cbn [pf_exec demo_fn].
    match goal with |- context [output ?b s] => pose proof (output_same P b s s' Sc) as Q; destruct (output b s), (output b s'); cbn in Q |- *; try contradiction; subst; auto end.
Qed.

(** ** Which fields a site asks for *)
Definition token_vars (t : token) : list text :=
  match t with
  | TVar v => [v]
  | TFun f => match f with
    | FDate v _ => [v] | FExcerpt v _ => [v] | FTime v => [v] | FIfDefined v => [v]
    | FIf _ a b => (match a with IVar v => [v] | _ => [] end) ++ (match b with IVar v => [v] | _ => [] end)
    | FFor ff => (match ff_type ff with SrcVar => [ff_src ff] | _ => [] end) ++ (match ff_sort ff with Some k => [k] | None => [] end)
    | _ => [] end
  | _ => []
  end.
Definition token_fields (t : token) : list text := flat_map (fun v => snd (split_char c_dot v)) (token_vars t).
Fixpoint fields_list (h : host) (ps : list plugin) (name : text) (e : ent) : list text :=
  match e with
  | EFile b => match create_from_file h ps true [] name b with
    | Ok n => match n_parsed n with PHtml toks => flat_map (fun t => token_fields (t_inner t)) toks | PMarkdown m => flat_map (fun t => token_fields (t_inner t)) (md_tokens m) | _ => [] end
    | _ => [] end
  | EDir l => flat_map (fun x => fields_list h ps (fst x) (snd x)) l
  | EOther => []
  end.
Lemma asks_listed t k : asks t k -> In k (token_fields t).
Proof.
  assert (G : forall v x p, v = dotted x p -> ~ In c_dot x -> Forall (fun j => ~ In c_dot j) p -> In k p -> In v (token_vars t) -> In k (token_fields t)).
  { intros v x p -> X F I J. unfold token_fields. apply in_flat_map. exists (dotted x p). split; [exact J|]. now rewrite split_dotted. }
  intros [x p X F R I|f x p -> X F R I]; apply (G _ x p eq_refl X F I).
  - clear -R. remember (dotted x p) as v. destruct R; subst; cbn; auto; try (apply in_or_app; right; now left). rewrite H. now left.
  - cbn. rewrite R. apply in_or_app. right. now left.
Qed.
Lemma tagged_fields h ps e : forall ks name b t body toks k, ent_at e ks (EFile b) -> (exists dirs, ks = dirs ++ [name]) -> utf8_text b t ->
  (has_ext name (lit "html") /\ body = t) \/ (has_ext name (lit "md") /\ exists fm, md_parts t fm body) ->
  parse_html (h_ext h) (fns ps) [] body = Ok toks -> In k (flat_map (fun t => token_fields (t_inner t)) toks) -> forall nm, (forall b, e <> EFile b) -> In k (fields_list h ps nm e).
Proof.
  assert (Fl : forall name b t body toks k, utf8_text b t ->
    (has_ext name (lit "html") /\ body = t) \/ (has_ext name (lit "md") /\ exists fm, md_parts t fm body) ->
    parse_html (h_ext h) (fns ps) [] body = Ok toks -> In k (flat_map (fun t => token_fields (t_inner t)) toks) -> In k (fields_list h ps name (EFile b))).
  { intros name b t body toks k U B Q I. apply decoding in U. cbn [fields_list]. unfold create_from_file. destruct B as [[X ->]|[X (fm & M)]]; apply extension_spec in X; rewrite X, U.
    - change (text_eqb (lit "html") (lit "html")) with true. cbv iota. cbn [ok_or bind]. rewrite Q. exact I.
    - change (text_eqb (lit "md") (lit "html")) with false. change (text_eqb (lit "md") (lit "md")) with true. cbv iota. cbn [ok_or bind]. rewrite (parts_parse _ _ _ _ _ _ M). unfold md_result. rewrite Q. exact I. }
  induction e as [b0| |l IH] using ent_ind2; intros ks name b t body toks k At D U B Q I nm NF; [now destruct (NF b0)|inversion At|].
  inversion At as [|? j x ks' ? J A]; subst. cbn [fields_list]. apply in_flat_map. exists (j, x). split; [exact J|]. cbn [fst snd].
  destruct ks' as [|j2 ks'].
  - inversion A; subst. destruct D as ([|? dirs] & D); [injection D as ->|destruct dirs; discriminate]. now apply (Fl _ _ t body toks).
  - rewrite Forall_forall in IH. apply (IH (j, x) J (j2 :: ks') name b t body toks); auto.
    + destruct D as ([|? dirs] & D); [discriminate|]. injection D as _ D. now exists dirs.
    + cbn. intros b1 ->. inversion A.
Qed.
Lemma asked_listed h ps e k nm : asked h ps e k -> In k (fields_list h ps nm e).
Proof.
  intros (ks & body & toks & t & (dirs & name & b & x & K & At & U & B) & M & I & A). apply (GrammarFacts.parse_means _ _ []) in M as (l & Q & <-). apply in_map_iff in I as (y & <- & I).
  apply (tagged_fields h ps e ks name b x body l k); auto; [now exists dirs|apply in_flat_map; exists y; split; [exact I|now apply asks_listed]|].
  intros b0 ->. subst ks. inversion At. destruct dirs; discriminate.
Qed.
