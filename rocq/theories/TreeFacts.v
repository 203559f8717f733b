(** TreeFacts.v -- trees of files: loading, building, templates, paths (C34 to C37). *)

From Coq Require Import String List NArith ZArith Bool Lia Permutation.
From Verif Require Import Text TextFacts Utf8 Json Base Syntax Parse Tree Interp Build SpecScope SpecPage SpecTree
  Utf8Facts ScopeFacts InterpFacts.
Import ListNotations.

(** ** Induction on trees *)
Lemma node_ind2 (P : node -> Prop) :
  (forall name b p meta src, P (NFile name b p meta src)) ->
  (forall name ch src, Forall P ch -> P (NDir name ch src)) -> forall n, P n.
Proof.
  intros HF HD. fix IH 1. intros [name b p meta src|name ch src]; [apply HF|]. apply HD.
  induction ch as [|c ch IHc]; [constructor|]. constructor; [apply IH|exact IHc].
Qed.
Lemma ent_ind2 (P : ent -> Prop) :
  (forall b, P (EFile b)) -> P EOther -> (forall l, Forall (fun e => P (snd e)) l -> P (EDir l)) -> forall e, P e.
Proof.
  intros HF HO HD. fix IH 1. intros [b|l|]; [apply HF| |apply HO]. apply HD.
  induction l as [|[k e] l IHl]; [constructor|]. constructor; [apply IH|exact IHl].
Qed.

Lemma map_res_ok {E A B} (f : A -> res E B) l l' : map_res f l = Ok l' <-> Forall2 (fun x y => f x = Ok y) l l'.
Proof.
  revert l'. induction l as [|x l IH]; intros l'; cbn.
  - split; [intros H; injection H as <-; constructor|]. intros H. now inversion H.
  - split.
    + destruct (f x) as [y|e|p|] eqn:F; cbn [bind]; try discriminate. fold (map_res f) in *.
      destruct (map_res f l) as [r|e|p|]; cbn [bind]; try discriminate. intros H; injection H as <-.
      constructor; [exact F|]. now apply IH.
    + intros H. inversion H as [|? y ? r F R]; subst. rewrite F. cbn [bind]. fold (map_res f). apply IH in R. now rewrite R.
Qed.
(** The first element that does not succeed decides. *)
Lemma map_res_fail {E A B} (f : A -> res E B) l r : map_res f l = r -> (forall l', r <> Ok l') ->
  exists a x b, l = a ++ x :: b /\ (forall y, f x <> Ok y) /\
    match r with Ok _ => False | Err e => f x = Err e | Panic p => f x = Panic p | OutOfFuel => f x = OutOfFuel end /\
    Forall (fun y => exists z, f y = Ok z) a.
Proof.
  revert r. induction l as [|x l IH]; intros r; cbn [map_res].
  - intros <- N. now destruct (N []).
  - destruct (f x) as [y|e|p|] eqn:F; cbn [bind]; fold (map_res f).
    + assert (IH' := IH (map_res f l) eq_refl). intros <- N. destruct (map_res f l) as [r|e|p|] eqn:R; cbn [bind] in *.
      * now destruct (N (y :: r)).
      * destruct IH' as (a & z & b & -> & N' & Fz & Fa); [discriminate|]. exists (x :: a), z, b. split; [reflexivity|]. split; [exact N'|].
        split; [exact Fz|]. constructor; [now exists y|exact Fa].
      * destruct IH' as (a & z & b & -> & N' & Fz & Fa); [discriminate|]. exists (x :: a), z, b. split; [reflexivity|]. split; [exact N'|].
        split; [exact Fz|]. constructor; [now exists y|exact Fa].
      * destruct IH' as (a & z & b & -> & N' & Fz & Fa); [discriminate|]. exists (x :: a), z, b. split; [reflexivity|]. split; [exact N'|].
        split; [exact Fz|]. constructor; [now exists y|exact Fa].
    + intros <- _. exists [], x, l. repeat split; [congruence|exact F|constructor].
    + intros <- _. exists [], x, l. repeat split; [congruence|exact F|constructor].
    + intros <- _. exists [], x, l. repeat split; [congruence|exact F|constructor].
Qed.

(** ** Extensions *)
Lemma splitn2_first c t : match splitn2 c t with
  | (a, None) => a = t /\ ~ In c t
  | (a, Some b) => t = a ++ c :: b /\ ~ In c a
  end.
Proof.
  induction t as [|x t IH]; cbn; [split; [reflexivity|intros []]|].
  destruct (N.eqb_spec x c) as [->|Hx]; [split; [reflexivity|intros []]|].
  destruct (splitn2 c t) as [a [b|]]; destruct IH as [E N]; subst; (split; [reflexivity|]); intros [K|K]; contradiction.
Qed.
Lemma extension_spec name e : extension name = Some e <-> has_ext name e.
Proof.
  unfold extension, has_ext. assert (H := splitn2_first c_dot (rev name)). destruct (splitn2 c_dot (rev name)) as [a [b|]].
  - destruct H as [H N]. assert (E : name = rev b ++ [c_dot] ++ rev a).
    { rewrite <- (rev_involutive name), H, rev_app_distr. cbn. now rewrite <- app_assoc. }
    split.
    + destruct b as [|x b]; [discriminate|]. intros K; injection K as <-. exists (rev (x :: b)). split; [exact E|].
      split; [intros Q; apply (f_equal (@length _)) in Q; rewrite rev_length in Q; discriminate|]. intros I. apply N. now apply in_rev.
    + intros (stem & E2 & NE & N2).
      assert (R : rev name = rev e ++ c_dot :: rev stem) by (rewrite E2, !rev_app_distr; cbn; now rewrite <- app_assoc).
      assert (Q : a = rev e /\ b = rev stem).
      { rewrite H in R. assert (N3 : ~ In c_dot (rev e)) by (intros I; apply N2; now apply in_rev). clear - R N N3. revert R N N3.
        generalize (rev e). generalize (rev stem). intros u v. revert v. induction a as [|x a IH]; intros [|y v] R N N3; cbn [app] in R.
        - split; [reflexivity|congruence].
        - assert (y = c_dot) by congruence. subst y. destruct N3. now left.
        - assert (x = c_dot) by congruence. subst x. destruct N. now left.
        - assert (x = y) by congruence. subst y. assert (R2 : a ++ c_dot :: b = v ++ c_dot :: u) by congruence.
          destruct (IH v R2) as [-> ->]; [intros I; apply N; now right|intros I; apply N3; now right|]. now split. }
      destruct Q as [-> ->]. assert (NE2 : rev stem <> []) by (intros Q; apply NE; rewrite <- (rev_involutive stem), Q; reflexivity).
      destruct (rev stem) as [|x l]; [contradiction|]. now rewrite rev_involutive.
  - destruct H as [-> N]. split; [discriminate|]. intros (stem & -> & NE & N2). destruct N. rewrite !rev_app_distr. cbn.
    apply in_or_app. left. apply in_or_app. right. now left.
Qed.
Lemma has_ext_unique name a b : has_ext name a -> has_ext name b -> a = b.
Proof. intros H K. apply extension_spec in H, K. congruence. Qed.

(** ** Loading *)
Definition ext_kind (ps : list plugin) (name : text) (pc : parsed) : Prop :=
  (has_ext name (lit "html") /\ exists t, pc = PHtml t) \/
  (has_ext name (lit "md") /\ exists m, pc = PMarkdown m /\ md_html m = None) \/
  (has_ext name (lit "json") /\ exists v, pc = PJson v) \/
  (exists ext np c, has_ext name ext /\ ext <> lit "html" /\ ext <> lit "md" /\ ext <> lit "json" /\
     In np (flat_map pl_parsers ps) /\ In ext (npa_exts np) /\ pc = PCustom c) \/
  (pc = PNone /\ forall ext, has_ext name ext -> ext <> lit "html" /\ ext <> lit "md" /\ ext <> lit "json" /\
     forall np, In np (flat_map pl_parsers ps) -> ~ In ext (npa_exts np)).
Lemma parse_markdown_html ext plugins file t m : parse_markdown ext plugins file t = Ok m -> md_html m = None.
Proof.
  unfold parse_markdown. match goal with |- bind ?x _ = _ -> _ => destruct x as [[n fm]|e|p|] end; cbn [bind]; try discriminate.
  destruct (parse_html _ _ _ _); cbn [bind]; try discriminate. intros E; injection E as <-. reflexivity.
Qed.
Lemma create_file_kind h ps p name b n : create_from_file h ps true p name b = Ok n ->
  exists pc, n = NFile name b pc None p /\ ext_kind ps name pc.
Proof.
  unfold create_from_file, ext_kind. destruct (extension name) as [e|] eqn:X.
  - apply extension_spec in X.
    destruct (text_eqb e (lit "html")) eqn:E1; [apply text_eqb_eq in E1; subst e|apply text_eqb_neq in E1].
    { destruct (from_utf8 b); cbn [ok_or bind]; try discriminate. destruct (parse_html _ _ _ _); cbn [map_err bind]; try discriminate.
      intros E; injection E as <-. eexists. split; [reflexivity|]. left. split; [exact X|now eexists]. }
    destruct (text_eqb e (lit "md")) eqn:E2; [apply text_eqb_eq in E2; subst e|apply text_eqb_neq in E2].
    { destruct (from_utf8 b); cbn [ok_or bind]; try discriminate. destruct (parse_markdown _ _ _ _) eqn:Q; cbn [map_err bind]; try discriminate.
      intros E; injection E as <-. eexists. split; [reflexivity|]. right; left. split; [exact X|]. eexists. split; [reflexivity|].
      now apply parse_markdown_html in Q. }
    destruct (text_eqb e (lit "json")) eqn:E3; [apply text_eqb_eq in E3; subst e|apply text_eqb_neq in E3].
    { destruct (from_utf8 b); cbn [ok_or bind]; try discriminate. destruct (h_json _ _); cbn [ok_or bind]; try discriminate.
      intros E; injection E as <-. eexists. split; [reflexivity|]. right; right; left. split; [exact X|now eexists]. }
    unfold find_node_parser. destruct (find _ _) as [np|] eqn:F.
    + apply find_some in F. destruct F as [F1 F2]. apply existsb_exists in F2. destruct F2 as (e' & F2 & F3). apply text_eqb_eq in F3. subst e'.
      destruct (npa_parse np b p) as [x|c]; cbn [bind]; [discriminate|]. intros E; injection E as <-. eexists. split; [reflexivity|].
      do 3 right; left. exists e, np, c. now repeat split.
    + cbn [bind]. intros E; injection E as <-. eexists. split; [reflexivity|]. do 4 right. split; [reflexivity|].
      intros e' X'. assert (e' = e) by (eapply has_ext_unique; eassumption). subst e'. repeat split; try assumption.
      intros np I1 I2. apply (find_none _ _ F) in I1. assert (existsb (text_eqb e) (npa_exts np) = true).
      { apply existsb_exists. exists e. split; [exact I2|apply text_eqb_refl]. } congruence.
  - cbn [bind]. intros E; injection E as <-. eexists. split; [reflexivity|]. do 4 right. split; [reflexivity|].
    intros e' X'. apply extension_spec in X'. congruence.
Qed.
Lemma create_file_static h ps p name b : create_from_file h ps false p name b = Ok (NFile name b PIgnored None p).
Proof. reflexivity. Qed.

Lemma Forall2_from {A B C} (f : A -> res C B) (P : A -> B -> Prop) l l' :
  Forall (fun x => forall y, f x = Ok y -> P x y) l -> map_res f l = Ok l' -> Forall2 P l l'.
Proof.
  intros H M. apply map_res_ok in M. induction M as [|x y l l' F M IH]; [constructor|].
  inversion H; subst. constructor; [now apply H2|now apply IH].
Qed.
Lemma create_loaded h ps parse e : forall p name n, create_from h ps parse p name e = Ok n -> loaded name e n.
Proof.
  induction e as [b| |l IH] using ent_ind2; intros p name n; cbn [create_from]; try discriminate.
  - destruct parse.
    + intros E. apply create_file_kind in E. destruct E as (pc & -> & _). constructor.
    + rewrite create_file_static. intros E; injection E as <-. constructor.
  - destruct (map_res _ l) as [ch|x|q|] eqn:M; cbn [bind]; try discriminate. intros E; injection E as <-. constructor.
    revert M. apply Forall2_from. revert IH. apply Forall_impl. intros [k e'] IH y. cbn [fst snd] in *. apply IH.
Qed.

(** ** Rendering the markdown bodies *)
Lemma preprocess_mirror pr n : forall anc n', preprocess pr n = Ok n' ->
  (forall b, pr_base pr = Some b -> ~ In c_colon (fr_name b)) -> (forall m, inside m n -> plugins_of plugin_ok (match n_parsed m with PMarkdown x => md_tokens x | _ => [] end)) ->
  mirror (preprocessed pr) anc n n'.
Proof.
  induction n as [name b p meta src|name ch src IH] using node_ind2; intros anc n' E NC PL; cbn [preprocess] in E.
  - destruct p as [t|m|v|c| |]; try (injection E as <-; constructor; constructor; discriminate).
    destruct (preprocess_markdown pr src m) as [m'|x|q|] eqn:P; cbn [map_err bind] in E; try discriminate. injection E as <-.
    unfold preprocess_markdown in P. destruct (pr_base pr) as [bf|] eqn:B; [|discriminate].
    destruct (phase pr (md_tokens m) [bf] []) as [s|x|q|] eqn:Ph; cbn [bind] in P; try discriminate.
    destruct (sc_stack s) as [|f r] eqn:St; [discriminate|]. destruct (is_base f) eqn:Bf; [|discriminate].
    destruct (from_utf8 (fr_out f)) as [t|] eqn:U; [|discriminate]. injection P as <-. constructor. constructor.
    exists bf, s, f. split; [exact B|]. split; [exact Ph|]. apply from_utf8_iff in U. split; [|symmetry; apply U].
    assert (BA := phase_based pr (md_tokens m) bf [] s (PL _ (in_here _)) (NC _ eq_refl) Ph).
    destruct BA as [BA _]. rewrite St in BA. destruct (based_top_base _ _ _ (NC _ eq_refl) BA Bf) as [-> _]. exact St.
  - destruct (map_res _ ch) as [ch'|x|q|] eqn:M; cbn [bind] in E; try discriminate. injection E as <-. constructor.
    revert M. apply Forall2_from. rewrite Forall_forall in *. intros c Hc c' Ec. apply (IH c Hc); [exact Ec|exact NC|].
    intros m Hm. apply PL. eapply in_child; eassumption.
Qed.

(** ** Templates *)
Lemma env_update_root ch : forall e,
  ev_vars (env_update e ch) = ev_vars e /\
  ((exists n, In n ch /\ n_name n = lit "root.html" /\ ev_root (env_update e ch) = html_of n) \/
   (~ In (lit "root.html") (map n_name ch) /\ ev_root (env_update e ch) = ev_root e)) /\
  ((exists n, In n ch /\ n_name n = lit "md.html" /\ ev_md (env_update e ch) = html_of n) \/
   (~ In (lit "md.html") (map n_name ch) /\ ev_md (env_update e ch) = ev_md e)).
Proof.
  induction ch as [|c ch IH]; intros e; cbn [env_update fold_left map].
  - split; [reflexivity|]. split; right; split; auto.
  - fold (env_update (env_child e c) ch). destruct (IH (env_child e c)) as (V & R & M). unfold env_child in *.
    assert (HT : match n_parsed c with PHtml t => Some t | _ => None end = html_of c) by (destruct c as [? ? p ? ?|]; [now destruct p|reflexivity]).
    destruct (text_eqb (n_name c) (lit "root.html")) eqn:E1; [|destruct (text_eqb (n_name c) (lit "md.html")) eqn:E2]; cbn [ev_vars ev_root ev_md] in *.
    + apply text_eqb_eq in E1. split; [exact V|]. split.
      * left. destruct R as [(n & I & N & R)|[_ R]]; [exists n; split; [now right|now split]|].
        exists c. split; [now left|]. split; [exact E1|]. now rewrite R, HT.
      * destruct M as [(n & I & N & M)|[NI M]]; [left; exists n; split; [now right|now split]|]. right. split; [|exact M].
        intros [K|K]; [rewrite E1 in K; discriminate K|contradiction].
    + apply text_eqb_eq in E2. split; [exact V|]. split.
      * destruct R as [(n & I & N & R)|[NI R]]; [left; exists n; split; [now right|now split]|]. right. split; [|exact R].
        intros [K|K]; [rewrite E2 in K; discriminate K|contradiction].
      * left. destruct M as [(n & I & N & M)|[_ M]]; [exists n; split; [now right|now split]|].
        exists c. split; [now left|]. split; [exact E2|]. now rewrite M, HT.
    + apply text_eqb_neq in E1, E2. split; [exact V|]. split.
      * destruct R as [(n & I & N & R)|[NI R]]; [left; exists n; split; [now right|now split]|]. right. split; [|exact R]. intros [K|K]; contradiction.
      * destruct M as [(n & I & N & M)|[NI M]]; [left; exists n; split; [now right|now split]|]. right. split; [|exact M]. intros [K|K]; contradiction.
Qed.
Definition in_force (vars : list (text * text)) (anc : list (list node)) (e : env) : Prop :=
  ev_vars e = vars /\ template_of (lit "root.html") anc (ev_root e) /\ template_of (lit "md.html") anc (ev_md e).
Lemma in_force_update vars anc e ch : in_force vars anc e -> in_force vars (ch :: anc) (env_update e ch).
Proof.
  intros (V & R & M). destruct (env_update_root ch e) as (V' & R' & M'). split; [congruence|]. split.
  - destruct R' as [(n & I & N & ->)|[NI ->]]; [now constructor|now apply to_up].
  - destruct M' as [(n & I & N & ->)|[NI ->]]; [now constructor|now apply to_up].
Qed.
Lemma in_force_again vars anc e ch : in_force vars (ch :: anc) e -> in_force vars (ch :: anc) (env_update e ch).
Proof.
  intros (V & R & M). destruct (env_update_root ch e) as (V' & R' & M'). split; [congruence|]. split.
  - destruct R' as [(n & I & N & ->)|[NI ->]]; [now constructor|exact R].
  - destruct M' as [(n & I & N & ->)|[NI ->]]; [now constructor|exact M].
Qed.
Lemma template_unique name anc t : Forall (fun ch => NoDup (map n_name ch)) anc -> template_of name anc t ->
  forall t', template_of name anc t' -> t = t'.
Proof.
  intros D H. induction H as [|ch ds n I N|ch ds t NI H IH]; intros t' K.
  - now inversion K.
  - inversion K as [|? ? n' I' N' E1 E2|? ? ? NI' K' E1 E2]; subst.
    + inversion D as [|? ? D1 _]; subst. f_equal. clear - I I' N' D1. induction ch as [|c ch IH]; [destruct I|].
      cbn in D1. inversion D1 as [|? ? D2 D3]; subst. destruct I as [->|I], I' as [->|I'].
      * reflexivity.
      * destruct D2. rewrite <- N'. now apply in_map.
      * destruct D2. rewrite N'. now apply in_map.
      * now apply IH.
    + destruct NI'. now apply in_map.
  - inversion K as [|? ? n' I' N' E1 E2|? ? ? NI' K' E1 E2]; subst.
    + destruct NI. now apply in_map.
    + inversion D; subst. now apply IH.
Qed.
Lemma template_exists name anc : exists t, template_of name anc t.
Proof.
  induction anc as [|ch anc [t IH]]; [exists None; constructor|].
  destruct (in_dec (list_eq_dec N.eq_dec) name (map n_name ch)) as [I|NI].
  - apply in_map_iff in I. destruct I as (n & N & I). eexists. now apply (to_here _ _ _ n).
  - exists t. now apply to_up.
Qed.

(** ** Building *)
Lemma is_template_spec name : is_template_name name = true <-> is_template name.
Proof. unfold is_template_name, is_template. rewrite orb_true_iff, !text_eqb_eq. tauto. Qed.
Lemma html_output pr e src t o : process_html pr e src t = Ok o -> exists b, o = POut (Some b) None.
Proof.
  unfold process_html. destruct (ev_root e); cbn [ok_or bind]; [|discriminate]. destruct (pr_base pr); [|discriminate].
  destruct (two_phases _ _ _ _ _ _); cbn [bind]; try discriminate. intros E; injection E as <-. now eexists.
Qed.
Lemma markdown_output pr e src name m o : process_markdown pr e src name m = Ok o ->
  exists b stem, o = POut (Some b) (Some (stem ++ lit ".html")) /\ name = stem ++ lit ".md".
Proof.
  unfold process_markdown. destruct (ev_root e); cbn [ok_or bind]; [|discriminate]. destruct (ev_md e); cbn [ok_or bind]; [|discriminate].
  destruct (pr_base pr); [|discriminate]. destruct (md_to_value m); cbn [bind]; try discriminate.
  destruct (two_phases _ _ _ _ _ _); cbn [bind]; try discriminate. destruct (strip_suffix (lit ".md") name) as [stem|] eqn:S; [|discriminate].
  intros E; injection E as <-. apply strip_suffix_spec in S. now eexists _, stem.
Qed.
Lemma file_publishes pr vars anc e name b p meta src out : in_force vars anc e ->
  process_file pr e name b p src = Ok out -> publishes pr vars anc (NFile name b p meta src) out.
Proof.
  intros (V & R & M). unfold process_file. destruct (is_template_name name) eqn:T.
  - apply is_template_spec in T. cbn [bind po_name po_contents]. intros E; injection E as <-. apply pu_copy. now left.
  - assert (NT : ~ is_template name) by (rewrite <- is_template_spec; congruence).
    assert (EE : e = Env vars (ev_root e) (ev_md e)) by (destruct e; cbn in *; now subst).
    destruct p as [t|m|v|c| |].
    + destruct (process_html pr e src t) as [o|x|q|] eqn:P; cbn [map_err bind]; try discriminate. destruct (html_output _ _ _ _ _ P) as [out' ->].
      cbn [po_name po_contents]. intros E; injection E as <-. rewrite EE in P.
      refine (pu_page _ _ _ (NFile name b (PHtml t) meta src) (PageHtml t) _ _ _ out' name _ (pg_html _ _ _ _ _ NT) R M P eq_refl _ _); [reflexivity|discriminate].
    + destruct (process_markdown pr e src name m) as [o|x|q|] eqn:P; cbn [map_err bind]; try discriminate.
      destruct (markdown_output _ _ _ _ _ _ P) as (out' & stem & -> & N).
      cbn [po_name po_contents]. intros E; injection E as <-. rewrite EE in P.
      refine (pu_page _ _ _ (NFile name b (PMarkdown m) meta src) (PageMd name m) _ _ _ out' _ _ (pg_md _ _ _ _ _ NT) R M P eq_refl _ _); [discriminate|].
      intros n m' _. exists stem. now split.
    + cbn [bind po_name po_contents]. intros E; injection E as <-. apply pu_copy. right; left. now exists v.
    + destruct (np_process c e) as [x|o] eqn:P; cbn [bind]; [discriminate|]. intros E; injection E as <-. rewrite EE in P.
      exact (pu_plugin pr vars anc name b c meta src _ _ o _ NT R M P).
    + cbn [bind po_name po_contents]. intros E; injection E as <-. apply pu_copy. tauto.
    + cbn [bind po_name po_contents]. intros E; injection E as <-. apply pu_copy. tauto.
Qed.
Lemma build_mirror pr vars n : forall anc e out, in_force vars anc e -> build_node pr e n = Ok out -> mirror (publishes pr vars) anc n out.
Proof.
  induction n as [name b p meta src|name ch src IH] using node_ind2; intros anc e out F; cbn [build_node].
  - intros E. constructor. now apply (file_publishes _ _ _ e).
  - destruct (map_res _ ch) as [ch'|x|q|] eqn:M; cbn [bind]; try discriminate. intros E; injection E as <-. constructor.
    revert M. apply Forall2_from. rewrite Forall_forall in *. intros c Hc c' Ec. apply (IH c Hc _ (env_update e ch)); [|exact Ec].
    now apply in_force_update.
Qed.

Definition build_pr (h : host) (meta : bool) (vars : list (text * text)) (site : node) : processor :=
  Processor h (Some site) (Some (base_frame vars)) meta.
Lemma base_no_colon vars : ~ In c_colon (fr_name (base_frame vars)).
Proof. intros H. repeat (destruct H as [H|H]; [discriminate H|]). exact H. Qed.
Lemma build_top pr vars name ch src out :
  build_node pr (env_update (Env vars None None) ch) (NDir name ch src) = Ok out -> mirror (publishes pr vars) [] (NDir name ch src) out.
Proof.
  cbn [build_node]. destruct (map_res _ ch) as [ch'|x|q|] eqn:M; cbn [bind]; try discriminate. intros E; injection E as <-. constructor.
  revert M. apply Forall2_from. rewrite Forall_forall in *. intros c Hc c' Ec. apply (build_mirror pr vars c [ch] _ c' ) in Ec; [exact Ec|].
  apply in_force_again, in_force_update. repeat split; constructor.
Qed.
Lemma tree_mirror h meta vars input input' out : build_tree h meta vars input = Ok (input', out) ->
  (forall m, inside m input -> plugins_of plugin_ok (match n_parsed m with PMarkdown x => md_tokens x | _ => [] end)) ->
  mirror (preprocessed (build_pr h meta vars input)) [] input input' /\ mirror (publishes (build_pr h meta vars input') vars) [] input' out.
Proof.
  unfold build_tree. fold (build_pr h meta vars input). destruct (preprocess _ input) as [i|x|q|] eqn:P; cbn [bind]; try discriminate.
  destruct i as [|name ch src]; [discriminate|]. cbn [n_children].
  match goal with |- bind ?x _ = _ -> _ => destruct x as [o|x'|q|] eqn:B end; cbn [bind]; try discriminate.
  intros E PL; injection E as <- <-. split.
  - apply preprocess_mirror; [exact P| |exact PL]. intros b Hb. injection Hb as <-. apply base_no_colon.
  - now apply build_top in B.
Qed.

Lemma Forall2_in_l {A B} (P : A -> B -> Prop) l l' x : Forall2 P l l' -> In x l -> exists y, In y l' /\ P x y.
Proof.
  induction 1 as [|a b l l' H F IH]; intros I; [destruct I|]. destruct I as [->|I]; [exists b; split; [now left|exact H]|].
  destruct (IH I) as (y & I' & K). exists y. split; [now right|exact K].
Qed.
Lemma mirror_found R : forall n anc f, found n anc f -> forall anc0 out, mirror R anc0 n out -> is_file f = true -> exists out', R (anc ++ anc0) f out'.
Proof.
  intros n anc f H. induction H as [n|name ch src c anc n I H IH]; intros anc0 out M F.
  - destruct M as [? ? ? ? ? ? out K|]; [now exists out|discriminate].
  - inversion M as [|? ? ? ? ch' M2]; subst. assert (X : exists c', mirror R (ch :: anc0) c c').
    { destruct (Forall2_in_l _ _ _ _ M2 I) as (y & _ & K). now exists y. }
    destruct X as [c' X]. destruct (IH _ _ X F) as [out' K]. exists out'. now rewrite <- app_assoc.
Qed.
Lemma found_distinct n anc f : found n anc f -> distinct n -> Forall (fun ch => NoDup (map n_name ch)) anc.
Proof.
  intros H. induction H as [n|name ch src c anc n I H IH]; intros D; [constructor|]. inversion D as [|? ? ? D1 D2]; subst.
  rewrite Forall_forall in D2. apply Forall_app. split; [now apply IH, D2|]. now repeat constructor.
Qed.
Lemma missing_root pr vars md src p : render_page pr (Env vars None md) src p = Err (TB src 0 0 XE_MissingHtmlRoot).
Proof. destruct p; reflexivity. Qed.
Lemma missing_md pr vars root src name m : render_page pr (Env vars (Some root) None) src (PageMd name m) = Err (TB src 0 0 XE_MissingMarkdownRoot).
Proof. reflexivity. Qed.
Lemma no_root h meta vars input input' out anc f p : build_tree h meta vars input = Ok (input', out) ->
  (forall m, inside m input -> plugins_of plugin_ok (match n_parsed m with PMarkdown x => md_tokens x | _ => [] end)) ->
  distinct input' -> found input' anc f -> page_of f p -> ~ template_of (lit "root.html") anc None.
Proof.
  intros B PL D F P T. destruct (tree_mirror _ _ _ _ _ _ B PL) as [_ M].
  destruct (mirror_found _ _ _ _ F _ _ M) as [o K]; [now destruct P|]. rewrite app_nil_r in K.
  assert (DA := found_distinct _ _ _ F D).
  inversion K as [f' p' root md o' b name' meta' P' R MD RP C|name b c m' src root md o' meta' NT|name b q m' src meta' Q]; subst.
  - assert (root = None) by (eapply template_unique; eassumption). subst root. rewrite missing_root in RP. discriminate.
  - inversion P.
  - inversion P; subst; destruct Q as [Q|[[v Q]|[Q|Q]]]; try discriminate; contradiction.
Qed.
Lemma file_fails pr vars anc e name b p meta src x : in_force vars anc e ->
  process_file pr e name b p src = Err x -> fails pr vars anc (NFile name b p meta src) x.
Proof.
  intros (V & R & M). unfold process_file. destruct (is_template_name name) eqn:T; [discriminate|].
  assert (NT : ~ is_template name) by (rewrite <- is_template_spec; congruence).
  assert (EE : e = Env vars (ev_root e) (ev_md e)) by (destruct e; cbn in *; now subst).
  destruct p as [t|m|v|c| |]; try discriminate.
  - destruct (process_html pr e src t) as [o|y|q|] eqn:P; cbn [map_err bind]; try discriminate. intros E; injection E as <-. rewrite EE in P.
    exact (fa_page pr vars anc (NFile name b (PHtml t) meta src) _ _ _ _ (pg_html _ _ _ _ _ NT) R M P).
  - destruct (process_markdown pr e src name m) as [o|y|q|] eqn:P; cbn [map_err bind]; try discriminate. intros E; injection E as <-. rewrite EE in P.
    exact (fa_page pr vars anc (NFile name b (PMarkdown m) meta src) _ _ _ _ (pg_md _ _ _ _ _ NT) R M P).
  - destruct (np_process c e) as [y|o] eqn:P; cbn [bind]; [|discriminate]. intros E; injection E as <-. rewrite EE in P.
    exact (fa_plugin pr vars anc name b c meta src _ _ y NT R M P).
Qed.
Lemma build_fails pr vars n : forall anc e x, in_force vars anc e -> build_node pr e n = Err x ->
  exists anc' f, found n anc' f /\ fails pr vars (anc' ++ anc) f x.
Proof.
  induction n as [name b p meta src|name ch src IH] using node_ind2; intros anc e x F; cbn [build_node].
  - intros E. exists [], (NFile name b p meta src). split; [constructor|]. now apply (file_fails _ _ _ e).
  - destruct (map_res _ ch) as [ch'|y|q|] eqn:M; cbn [bind]; try discriminate. intros E; injection E as ->.
    destruct (map_res_fail _ _ _ M) as (a & c & l & -> & _ & Ec & _); [discriminate|]. rewrite Forall_forall in IH.
    destruct (IH c (in_elt _ _ _) (_ :: anc) _ _ (in_force_update _ _ _ _ F) Ec) as (anc' & f & Hf & K).
    exists (anc' ++ [a ++ c :: l]), f. split; [|now rewrite <- app_assoc]. econstructor; [apply in_elt|exact Hf].
Qed.
Lemma preprocess_fails pr n : forall x, preprocess pr n = Err x ->
  exists name b m meta src y, inside (NFile name b (PMarkdown m) meta src) n /\ preprocess_markdown pr src m = Err y /\ x = E_Process y.
Proof.
  induction n as [name b p meta src|name ch src IH] using node_ind2; intros x; cbn [preprocess].
  - destruct p; try discriminate. destruct (preprocess_markdown pr src m) as [m'|y|q|] eqn:P; cbn [map_err bind]; try discriminate.
    intros E; injection E as <-. exists name, b, m, meta, src, y. repeat split; [constructor|exact P].
  - destruct (map_res _ ch) as [ch'|y|q|] eqn:M; cbn [bind]; try discriminate. intros E; injection E as ->.
    destruct (map_res_fail _ _ _ M) as (a & c & l & -> & _ & Ec & _); [discriminate|]. rewrite Forall_forall in IH.
    destruct (IH c (in_elt _ _ _) _ Ec) as (nm & b & m & meta & s & y & I & P & ->).
    exists nm, b, m, meta, s, y. repeat split; [|exact P]. econstructor; [apply in_elt|exact I].
Qed.
Lemma tree_fails h meta vars input x : build_tree h meta vars input = Err x ->
  (exists name b m me src y, inside (NFile name b (PMarkdown m) me src) input /\
     preprocess_markdown (build_pr h meta vars input) src m = Err y /\ x = E_Process y) \/
  (exists input' anc f, preprocess (build_pr h meta vars input) input = Ok input' /\ found input' anc f /\
     fails (build_pr h meta vars input') vars anc f x).
Proof.
  unfold build_tree. fold (build_pr h meta vars input). destruct (preprocess _ input) as [i|y|q|] eqn:P; cbn [bind]; try discriminate.
  - destruct i as [|name ch src]; [discriminate|]. cbn [n_children].
    match goal with |- bind ?x _ = _ -> _ => destruct x as [o|x'|q|] eqn:B end; cbn [bind]; try discriminate.
    intros E; injection E as ->. right. exists (NDir name ch src). cbn [build_node] in B.
    destruct (map_res _ ch) as [ch'|y|q|] eqn:M; cbn [bind] in B; try discriminate. injection B as ->.
    destruct (map_res_fail _ _ _ M) as (a & c & l & -> & _ & Ec & _); [discriminate|].
    apply (build_fails _ vars c [a ++ c :: l]) in Ec; [|apply in_force_again, in_force_update; repeat split; constructor].
    destruct Ec as (anc' & f & Hf & K). exists (anc' ++ [a ++ c :: l]), f. split; [reflexivity|]. split; [|exact K].
    econstructor; [apply in_elt|exact Hf].
  - intros E; injection E as ->. left. now apply preprocess_fails in P.
Qed.

(** ** From directory to output *)
Lemma built_file ps name b pc pc' src pr e out : ext_kind ps name pc ->
  (match pc with PMarkdown _ => exists m', pc' = PMarkdown m' | _ => pc' = pc end) ->
  process_file pr e name b pc' src = Ok out -> built_from ps name (EFile b) out.
Proof.
  intros K PP E. unfold process_file in E.
  destruct (is_template_name name) eqn:T.
  - apply is_template_spec in T. cbn [bind po_name po_contents] in E. injection E as <-.
    assert (H : has_ext name (lit "html")) by (destruct T as [-> | ->]; apply extension_spec; reflexivity).
    apply bf_same; [intros X; apply (has_ext_unique _ _ _ H) in X; discriminate|intros _; exact T|].
    intros ext np X _ _. left. now apply (has_ext_unique _ _ _ X) in H.
  - assert (NT : ~ is_template name) by (rewrite <- is_template_spec; congruence).
    destruct K as [[X [t ->]]|[[X (m & -> & _)]|[[X [v ->]]|[(ext & np & c & X & N1 & N2 & N3 & I1 & I2 & ->)|[-> N]]]]].
    + subst pc'. destruct (process_html _ _ _ _) as [o|y|q|] eqn:P; cbn [map_err bind] in E; try discriminate. injection E as <-.
      destruct (html_output _ _ _ _ _ P) as [out' ->]. cbn [po_name po_contents]. now apply bf_html.
    + destruct PP as [m' ->]. destruct (process_markdown _ _ _ _ _) as [o|y|q|] eqn:P; cbn [map_err bind] in E; try discriminate. injection E as <-.
      destruct (markdown_output _ _ _ _ _ _ P) as (out' & stem & -> & ->). cbn [po_name po_contents]. apply bf_markdown.
      intros ->. destruct X as (st & E & NE & _). change ([] ++ lit ".md") with (lit ".md") in E.
      apply NE. apply (f_equal (@length _)) in E. rewrite !app_length in E. cbn in E. destruct st; [reflexivity|cbn in E; lia].
    + subst pc'. cbn [bind po_name po_contents] in E. injection E as <-.
      apply bf_same; [intros Y; apply (has_ext_unique _ _ _ X) in Y; discriminate|intros Y; apply (has_ext_unique _ _ _ X) in Y; discriminate|].
      intros e' np Y _ _. right. now apply (has_ext_unique _ _ _ Y) in X.
    + subst pc'. destruct (np_process c e) as [y|o] eqn:P; cbn [bind] in E; [discriminate|]. injection E as <-.
      now apply (bf_plugin ps name _ ext np).
    + subst pc'. cbn [bind po_name po_contents] in E. injection E as <-.
      apply bf_same; [intros Y; now apply N in Y|intros Y; now apply N in Y|].
      intros e' np Y I1 I2. destruct (N e' Y) as (_ & _ & _ & K). now destruct (K np I1).
Qed.
Lemma built_entry h ps pr0 pr ent : forall p name e n n' out,
  create_from h ps true p name ent = Ok n -> preprocess pr0 n = Ok n' -> build_node pr e n' = Ok out -> built_from ps name ent out.
Proof.
  induction ent as [b| |l IH] using ent_ind2; intros p name e n n' out; cbn [create_from]; try discriminate.
  - intros C P B. apply create_file_kind in C. destruct C as (pc & -> & K). cbn [preprocess] in P.
    assert (Q : exists pc', n' = NFile name b pc' None p /\ match pc with PMarkdown _ => exists m', pc' = PMarkdown m' | _ => pc' = pc end).
    { destruct pc; try (injection P as <-; eexists; split; reflexivity).
      destruct (preprocess_markdown pr0 p m); cbn [map_err bind] in P; try discriminate. injection P as <-. eexists. split; [reflexivity|]. now eexists. }
    destruct Q as (pc' & -> & Q). cbn [build_node] in B. eapply built_file; eassumption.
  - destruct (map_res _ l) as [ch|x|q|] eqn:M; cbn [bind]; try discriminate. intros E; injection E as <-. cbn [preprocess].
    destruct (map_res _ ch) as [ch'|x|q|] eqn:M2; cbn [bind]; try discriminate. intros E; injection E as <-. cbn [build_node].
    generalize (env_update e ch'). intros e'.
    destruct (map_res _ ch') as [co|x|q|] eqn:M3; cbn [bind]; try discriminate. intros E; injection E as <-. constructor.
    apply map_res_ok in M, M2, M3. revert ch' co M2 M3. induction M as [|[k x] y l ch C M IHM]; intros ch' co M2 M3.
    + inversion M2; subst. inversion M3; subst. constructor.
    + inversion M2; subst. inversion M3; subst. inversion IH; subst. constructor; [|now eapply IHM; try eassumption].
      cbn [fst snd] in *. eauto.
Qed.
Lemma built_output h osenv mode d st out : snd (build h osenv mode d st) = Ok tt -> st_output (fst (build h osenv mode d st)) = Some out ->
  exists e, sd_ent d = Some e /\ built_from (st_plugins st) (sd_name d) e out.
Proof.
  unfold build, node_new. destruct (sd_ent d) as [[|l|]|]; try discriminate.
  destruct (create_from _ _ _ _ _ _) as [input|x|q|] eqn:C; try discriminate.
  destruct (preprocess _ input) as [input'|x|q|] eqn:P; try discriminate.
  destruct (build_tree _ _ _ _) as [[i o]|x|q|] eqn:B; try discriminate. cbn [snd fst st_output]. intros _ E; injection E as ->.
  exists (EDir l). split; [reflexivity|]. unfold build_tree in B. rewrite P in B. cbn [bind] in B.
  destruct (n_children input') as [ch|]; [|discriminate].
  match type of B with bind ?x _ = _ => destruct x as [o|x'|q|] eqn:BN end; cbn [bind] in B; try discriminate. injection B as _ <-.
  eapply built_entry; eassumption.
Qed.

(** ** Distinct names *)
Lemma loaded_name name e n : loaded name e n -> n_name n = name.
Proof. now destruct 1. Qed.
Lemma loaded_distinct e : forall name n, ent_distinct e -> loaded name e n -> distinct n.
Proof.
  induction e as [b| |l IH] using ent_ind2; intros name n D L; inversion L as [|? ? ch src F]; subst; try constructor.
  - inversion D as [| |? D1 D2]; subst. assert (E : map n_name ch = map fst l).
    { clear - F. induction F as [|[k e] c l ch H F IH]; [reflexivity|]. cbn. apply loaded_name in H. cbn in H. now rewrite H, IH. }
    now rewrite E.
  - inversion D as [| |? D1 D2]; subst. clear - IH F D2. induction F as [|[k e] c l ch H F IHF]; constructor; inversion IH; inversion D2; subst.
    + cbn [fst snd] in *. eauto.
    + now apply IHF.
Qed.
Lemma preprocess_distinct pr n : forall n', preprocess pr n = Ok n' -> n_name n' = n_name n /\ (distinct n -> distinct n').
Proof.
  induction n as [name b p meta src|name ch src IH] using node_ind2; intros n'; cbn [preprocess].
  - destruct p; try (intros E; injection E as <-; now split).
    destruct (preprocess_markdown pr src m); cbn [map_err bind]; try discriminate. intros E; injection E as <-. split; [reflexivity|constructor].
  - destruct (map_res _ ch) as [ch'|x|q|] eqn:M; cbn [bind]; try discriminate. intros E; injection E as <-. split; [reflexivity|].
    intros D. inversion D as [|? ? ? D1 D2]; subst. apply map_res_ok in M.
    assert (X : map n_name ch' = map n_name ch /\ Forall distinct ch').
    { clear D D1. induction M as [|c c' ch ch' H M IHM]; [split; [reflexivity|constructor]|]. inversion IH as [|? ? IH1 IH2]; subst. inversion D2; subst.
      destruct (IH1 _ H) as [N K]. destruct IHM as [E F]; try assumption. cbn. rewrite N, E. split; [reflexivity|]. constructor; auto. }
    destruct X as [E F]. constructor; [now rewrite E|exact F].
Qed.
Lemma template_order name anc anc' t : Forall2 (@Permutation node) anc anc' -> template_of name anc t -> template_of name anc' t.
Proof.
  intros P H. revert anc' P. induction H as [|ch ds n I N|ch ds t NI H IH]; intros anc' P; inversion P as [|? ch' ? ds' PC PD]; subst.
  - constructor.
  - apply to_here; [now apply (Permutation_in _ PC)|reflexivity].
  - apply to_up; [|now apply IH]. intros J. apply NI. apply (Permutation_in _ (Permutation_sym (Permutation_map n_name PC))). exact J.
Qed.
Lemma load_distinct h ps parse p name e n : ent_distinct e -> create_from h ps parse p name e = Ok n -> distinct n.
Proof. intros D C. apply create_loaded in C. now apply (loaded_distinct e name). Qed.
Lemma missing_root_error pr vars anc f p x : Forall (fun ch => NoDup (map n_name ch)) anc -> page_of f p ->
  template_of (lit "root.html") anc None -> fails pr vars anc f x -> x = E_Process (TB (n_source f) 0 0 XE_MissingHtmlRoot).
Proof.
  intros D P T F. inversion F as [f' p' root md y P' R M E|? ? ? ? ? ? ? ? NT]; subst.
  - assert (root = None) by (eapply template_unique; eassumption). subst root. rewrite missing_root in E. now injection E as <-.
  - inversion P.
Qed.
