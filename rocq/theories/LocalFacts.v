(** LocalFacts.v -- a page depends on its own file, its templates, and the data of the site (C72). *)

From Coq Require Import String List NArith ZArith Bool Lia.
From Verif Require Import Text TextFacts Utf8 Json Base Syntax Parse Tree Interp Build SpecTemplate SpecScope SpecPage SpecTree SpecSite SpecLocal.
From Verif Require Import TreeFacts SiteFacts ViewFacts.
Import ListNotations.

(** ** Loading and pruning *)
Lemma keep_ext h ps p k b n : create_from_file h ps true p k b = Ok n -> prune n = n /\ (keep n = true <-> has_ext k (lit "md") \/ has_ext k (lit "json")).
Proof.
  intros C. destruct (create_file_kind _ _ _ _ _ _ C) as (pc & -> & K). split; [reflexivity|]. cbn [keep].
  destruct K as [(X & t & ->)|[(X & m & -> & _)|[(X & v & ->)|[(ext & np & c & X & N1 & N2 & N3 & _ & _ & ->)|(-> & N)]]]].
  - split; [discriminate|]. intros [Y|Y]; pose proof (has_ext_unique _ _ _ X Y) as Z; discriminate Z.
  - tauto.
  - tauto.
  - split; [discriminate|]. intros [Y|Y]; pose proof (has_ext_unique _ _ _ X Y) as Z; contradiction.
  - split; [discriminate|]. intros [Y|Y]; apply N in Y; tauto.
Qed.
Lemma create_data h ps e : forall d p nm n, data_part e d -> create_from h ps true p nm e = Ok n -> create_from h ps true p nm d = Ok (prune n).
Proof.
  induction e as [b| |l IH] using ent_ind2; intros d p nm n D C; inversion D as [| |? l' DS]; subst.
  - cbn [create_from] in *. destruct (keep_ext _ _ _ _ _ _ C) as [-> _]. exact C.
  - discriminate C.
  - cbn [create_from] in *. destruct (map_res _ l) as [ch|x|q|] eqn:M; cbn [bind] in C; try discriminate. injection C as <-. cbn [prune].
    assert (M' : map_res (fun ne => create_from h ps true (p ++ [fst ne]) (fst ne) (snd ne)) l' = Ok (prune_all ch)); [|rewrite M'; reflexivity].
    apply map_res_ok in M. apply map_res_ok. clear D. revert l' DS IH. induction M as [|[k e] c l ch Ec M IHM]; intros l' DS IH; inversion IH as [|? ? I1 I2]; subst; cbn [fst snd] in *.
    + inversion DS; subst. constructor.
    + unfold prune_all. cbn [flat_map]. fold (prune_all ch). inversion DS as [|? b ? l0 N1 N2 DS'|? b ? l0 Y DS'|? ? e' ? l0 NF De DS']; subst; cbn [create_from] in Ec.
      * destruct (keep_ext _ _ _ _ _ _ Ec) as [_ K]. destruct (keep c); [destruct (proj1 K eq_refl); contradiction|]. cbn [app]. now apply IHM.
      * destruct (keep_ext _ _ _ _ _ _ Ec) as [P K]. destruct (keep c); [|discriminate (proj2 K Y)]. cbn [app]. constructor; [cbn [fst snd create_from]; now rewrite P|now apply IHM].
      * assert (K : keep c = true). { destruct e as [b|l0'|]; [now destruct (NF b)| |discriminate Ec]. cbn [create_from] in Ec. destruct (map_res _ l0'); cbn [bind] in Ec; try discriminate. now injection Ec as <-. }
        rewrite K. cbn [app]. constructor; [cbn [fst snd]; now apply I1|now apply IHM].
Qed.
Lemma preprocess_prune pr pr' : pr_views (fun _ => True) pr pr' -> forall n n', preprocess pr n = Ok n' -> keep n' = keep n /\ preprocess pr' (prune n) = Ok (prune n').
Proof.
  intros V. induction n as [name b p meta src|name ch src IH] using node_ind2; intros n'; cbn [preprocess prune].
  - destruct p; try (intros E; injection E as <-; split; reflexivity). destruct (preprocess_markdown pr src m) as [m'|x|q|] eqn:E; cbn [map_err bind]; try discriminate.
    rewrite (body_view _ _ _ _ _ _ V I E). cbn [map_err bind]. intros E'; injection E' as <-. split; reflexivity.
  - destruct (map_res _ ch) as [ch'|x|q|] eqn:M; cbn [bind]; try discriminate. intros E; injection E as <-. split; [reflexivity|]. cbn [prune].
    assert (M' : map_res (preprocess pr') (prune_all ch) = Ok (prune_all ch')); [|change (bind (map_res (preprocess pr') (prune_all ch)) (fun c => Ok (NDir name c src)) = Ok (NDir name (prune_all ch') src)); rewrite M'; reflexivity].
    apply map_res_ok in M. apply map_res_ok. induction M as [|c c' ch ch' Ec M IHM]; [constructor|]. inversion IH as [|? ? I1 I2]; subst.
    destruct (I1 _ Ec) as [K P]. unfold prune_all. cbn [flat_map]. fold (prune_all ch). fold (prune_all ch'). rewrite K. destruct (keep c); cbn [app]; [constructor; [exact P|now apply IHM]|now apply IHM].
Qed.

(** ** Where the files of a tree come from *)
Lemma last_cons {A} (ks : list A) : forall k nm, last (k :: ks) nm = last ks k.
Proof. induction ks as [|x ks IH]; intros k nm; [reflexivity|]. change (last (k :: x :: ks) nm) with (last (x :: ks) nm). now rewrite !IH. Qed.
Lemma loaded_at h ps pr n' anc ks anc' f : spine n' anc ks anc' f -> is_file f = true -> forall e p nm n, create_from h ps true p nm e = Ok n -> preprocess pr n = Ok n' ->
  exists b n0, ent_at e ks (EFile b) /\ create_from_file h ps true (p ++ ks) (last ks nm) b = Ok n0 /\ preprocess pr n0 = Ok f.
Proof.
  induction 1 as [n' anc|name ch' src c' ks anc anc' f Ic H IH]; intros F e p nm n C P.
  - destruct e as [b|l|]; cbn [create_from] in C; [| |discriminate].
    + exists b, n. rewrite app_nil_r. split; [constructor|]. split; [exact C|exact P].
    + destruct (map_res _ l); cbn [bind] in C; try discriminate. injection C as <-. cbn [preprocess] in P. destruct (map_res _ a); cbn [bind] in P; try discriminate. injection P as <-. discriminate F.
  - destruct e as [b|l|]; cbn [create_from] in C; [| |discriminate].
    + destruct (create_file_kind _ _ _ _ _ _ C) as (pc & -> & _). destruct (file_preprocess pr (NFile nm b pc None p) _ eq_refl P) as [_ X]. discriminate X.
    + destruct (map_res _ l) as [ch|x|q|] eqn:M; cbn [bind] in C; try discriminate. injection C as <-. cbn [preprocess] in P.
      destruct (map_res (preprocess pr) ch) as [ch2|x|q|] eqn:M2; cbn [bind] in P; try discriminate. injection P as -> -> ->.
      apply map_res_ok in M, M2. destruct (Forall2_in_r _ _ _ _ M2 Ic) as (c & I1 & Pc). destruct (Forall2_in_r _ _ _ _ M I1) as ((k & e) & I2 & Cc). cbn [fst snd] in Cc.
      destruct (IH F e (src ++ [k]) k c Cc Pc) as (b & n0 & A & B & D).
      assert (Nk : n_name c' = k). { pose proof (stands_name _ _ _ _ (preprocess_stands _ _ _ _ _ _ _ (create_stands _ _ _ _ _ _ Cc) Pc)). auto. }
      rewrite Nk. exists b, n0. split; [econstructor; eassumption|]. split; [|exact D]. rewrite <- app_assoc in B. cbn [app] in B.
      rewrite last_cons. exact B.
Qed.

Lemma entry_unique {A} (l : list (text * A)) k x y : NoDup (map fst l) -> In (k, x) l -> In (k, y) l -> x = y.
Proof.
  induction l as [|[j z] l IH]; intros D I J; [destruct I|]. cbn [map fst] in D. inversion D as [|? ? D1 D2]; subst.
  assert (N : forall w, In (j, w) l -> False) by (intros w W; apply D1; now apply (in_map fst) in W).
  destruct I as [I|I], J as [J|J].
  - congruence.
  - injection I as -> ->. destruct (N _ J).
  - injection J as -> ->. destruct (N _ I).
  - now apply IH.
Qed.
Lemma ent_unique e ks x : ent_at e ks x -> ent_distinct e -> forall y, ent_at e ks y -> x = y.
Proof.
  induction 1 as [e|l k e ks x I H IH]; intros D y K; inversion K as [|? ? e2 ? ? I2 K2]; subst; [reflexivity|].
  inversion D as [| |? D1 D2]; subst. assert (e2 = e) by (eapply entry_unique; eassumption). subst e2. apply IH; [|exact K2]. rewrite Forall_forall in D2. exact (D2 _ I).
Qed.

(** ** Templates *)
Definition alike_in (ch ch' : list node) : Prop :=
  forall t r, is_template t -> (exists m, In m ch /\ n_name m = t /\ html_of m = r) <-> (exists m, In m ch' /\ n_name m = t /\ html_of m = r).
Lemma template_alike t anc r : is_template t -> template_of t anc r -> forall anc', Forall2 alike_in anc anc' -> template_of t anc' r.
Proof.
  intros T. induction 1 as [|ch ds n I N|ch ds r N H IH]; intros anc' F; inversion F as [|? ch' ? ds' A F']; subst.
  - constructor.
  - destruct (proj1 (A (n_name n) (html_of n) T)) as (m & I' & N' & <-); [now exists n|]. now constructor.
  - apply to_up; [|now apply IH]. intros J. apply in_map_iff in J as (m & Nm & I). apply N. destruct (proj2 (A t (html_of m) T)) as (m' & I' & N' & _); [now exists m|]. rewrite <- N'. now apply in_map.
Qed.
Definition tmpl (n : node) (ks : list text) (r : option (list ltoken)) : Prop := exists m, at_names n ks m /\ html_of m = r.
Lemma spine_alike n anc ks anc1 f : spine n anc ks anc1 f -> forall nm ch src, f = NDir nm ch src -> distinct n -> forall n' anc' anc1' nm' ch' src',
  spine n' anc' ks anc1' (NDir nm' ch' src') -> distinct n' -> Forall2 alike_in anc anc' ->
  (forall ks1 ks2 t r, ks = ks1 ++ ks2 -> is_template t -> tmpl n (ks1 ++ [t]) r <-> tmpl n' (ks1 ++ [t]) r) ->
  Forall2 alike_in (ch :: anc1) (ch' :: anc1').
Proof.
  assert (Top : forall nm ch src t r, tmpl (NDir nm ch src) ([] ++ [t]) r <-> exists m, In m ch /\ n_name m = t /\ html_of m = r).
  { intros nm ch src t r. split.
    - intros (m & A & E). inversion A as [|? ? ? c ? ? Ic A']; subst. inversion A'; subst. now exists m.
    - intros (m & Im & <- & E). exists m. split; [econstructor; [exact Im|constructor]|exact E]. }
  assert (Dn : forall nm ch src c ks r, distinct (NDir nm ch src) -> In c ch -> tmpl (NDir nm ch src) (n_name c :: ks) r <-> tmpl c ks r).
  { intros nm ch src c ks' r D Ic. split.
    - intros (m & A & E). inversion A as [|? ? ? c2 ? ? Ic2 A' ]; subst. inversion D as [|? ? ? D1 _]; subst. assert (c2 = c) by (eapply same_child; eassumption). subst c2. now exists m.
    - intros (m & A & E). exists m. split; [now econstructor|exact E]. }
  induction 1 as [n anc|name c0 src0 c ks anc anc1 f Ic H IH]; intros nm ch src E D n' anc' anc1' nm' ch' src' Sp' D' F T.
  - subst n. inversion Sp'; subst. constructor; [|exact F]. intros t r It. specialize (T [] [] t r eq_refl It). rewrite !Top in T. exact T.
  - inversion Sp' as [|name' c0' src0' c' ? ? ? ? Ic' Sc]; subst. assert (E2 : n_name c' = n_name c) by assumption.
    assert (Dc : distinct c) by (inversion D as [|? ? ? _ D2]; subst; rewrite Forall_forall in D2; now apply D2).
    assert (Dc' : distinct c') by (inversion D' as [|? ? ? _ D2]; subst; rewrite Forall_forall in D2; now apply D2).
    eapply IH; [reflexivity|exact Dc|exact Sc|exact Dc'| |].
    + constructor; [|exact F]. intros t r It. specialize (T [] (n_name c :: ks) t r eq_refl It). rewrite !Top in T. exact T.
    + intros ks1 ks2 t r -> It. specialize (T (n_name c :: ks1) ks2 t r eq_refl It). cbn [app] in T. rewrite (Dn _ _ _ _ _ _ D Ic) in T. rewrite <- E2 in T.
      rewrite (Dn _ _ _ _ _ _ D' Ic') in T. exact T.
Qed.

(** ** Pages and their files *)
Lemma process_view pr pr' e name b pc src o : pr_views (fun _ => True) pr pr' -> process_file pr e name b pc src = Ok o ->
  exists nm bs meta meta', o = NFile nm bs PNone meta src /\ process_file pr' e name b pc src = Ok (NFile nm bs PNone meta' src).
Proof.
  intros V. unfold process_file. destruct (is_template_name name); [cbn [bind]; intros E; injection E as <-; repeat eexists|].
  assert (En : env_in (fun _ => True) e) by (split; auto).
  destruct pc as [t|m|v|c| |]; try (cbn [bind]; intros E; injection E as <-; repeat eexists).
  - destruct (process_html pr e src t) as [x| | |] eqn:P; cbn [map_err bind]; try discriminate. intros E; injection E as <-.
    pose proof (render_view _ _ _ e src (PageHtml t) x V En (fun _ _ => I) P) as Q. cbn [render_page] in Q. rewrite Q. cbn [map_err bind]. repeat eexists.
  - destruct (process_markdown pr e src name m) as [x| | |] eqn:P; cbn [map_err bind]; try discriminate. intros E; injection E as <-.
    pose proof (render_view _ _ _ e src (PageMd name m) x V En (fun _ _ => I) P) as Q. cbn [render_page] in Q. rewrite Q. cbn [map_err bind]. repeat eexists.
  - destruct (np_process c e) as [x|x]; cbn [bind]; try discriminate. intros E; injection E as <-. repeat eexists.
Qed.
Section Origin.
  Variable pr : processor.
  Variable vars : list (text * text).
  Lemma origin root n : forall ks anc nm ch src e ch', n = NDir nm ch src -> spine root [] ks anc n -> in_force vars (ch :: anc) e ->
    map_res (build_node pr e) ch = Ok ch' -> forall c' ks' k b pc m s, In c' ch' -> at_names c' ks' (NFile k b pc m s) ->
    exists dirs anc1 nm1 ch1 src1 c e1, n_name c' :: ks' = dirs ++ [k] /\ spine root [] (ks ++ dirs) anc1 (NDir nm1 ch1 src1) /\ In c ch1 /\ is_file c = true /\
      in_force vars (ch1 :: anc1) e1 /\ build_node pr e1 c = Ok (NFile k b pc m s).
  Proof.
    induction n as [n1 n2 n3 n4 n5|nm0 ch0 src0 IH] using node_ind2; intros ks anc nm ch src2 e ch' E Sp F M c' ks' k b pc m s I' A; [discriminate|]. injection E as -> -> ->.
    apply map_res_ok in M. destruct (Forall2_in_r _ _ _ _ M I') as (c & I & Ec).
    assert (Sc : spine root [] (ks ++ [n_name c]) (ch :: anc) c). { eapply spine_app; [exact Sp|]. econstructor; [exact I|constructor]. }
    destruct c as [name b0 pc0 m0 s0|name ch2 s0] eqn:Eq.
    - assert (E' := Ec). cbn [build_node] in Ec. unfold process_file in Ec. match type of Ec with bind ?x _ = _ => destruct x as [o| | |] end; cbn [bind] in Ec; try discriminate.
      injection Ec as <-. inversion A; subst. exists [], anc, nm, ch, src2, (NFile name b0 pc0 m0 s), e. rewrite app_nil_r. repeat split; try assumption; apply F.
    - cbn [build_node] in Ec. destruct (map_res (build_node pr (env_update e ch2)) ch2) as [ch2'| | |] eqn:M2; cbn [bind] in Ec; try discriminate.
      injection Ec as <-. inversion A as [|? ? ? x ? ? Ix Ax]; subst. rewrite Forall_forall in IH.
      destruct (IH _ I (ks ++ [name]) (ch :: anc) name ch2 s0 (env_update e ch2) ch2' eq_refl Sc (in_force_update _ _ _ _ F) M2 _ _ _ _ _ _ _ Ix Ax)
        as (dirs & anc1 & nm1 & ch1 & src1 & c & e1 & E1 & S1 & R).
      exists (name :: dirs), anc1, nm1, ch1, src1, c, e1. cbn [n_name app]. rewrite E1. split; [reflexivity|]. rewrite <- app_assoc in S1. now split.
  Qed.
  Lemma reach n anc ks anc1 f : spine n anc ks anc1 f -> forall nm ch src nm1 ch1 src1 e ch' c, n = NDir nm ch src -> f = NDir nm1 ch1 src1 -> in_force vars (ch :: anc) e ->
    map_res (build_node pr e) ch = Ok ch' -> In c ch1 -> is_file c = true ->
    exists e1 c', in_force vars (ch1 :: anc1) e1 /\ build_node pr e1 c = Ok c' /\ at_names (NDir nm ch' src) (ks ++ [n_name c']) c'.
  Proof.
    induction 1 as [n anc|name c0 src0 d ks anc anc1 f Ic H IH]; intros nm ch src nm1 ch1 src1 e ch' c E Ef F M I1 Fi.
    - subst n. injection Ef as -> -> ->. apply map_res_ok in M. destruct (Forall2_in_l _ _ _ _ M I1) as (c' & Ic' & Bc). exists e, c'. split; [exact F|]. split; [exact Bc|].
      cbn [app]. econstructor; [exact Ic'|constructor].
    - injection E as -> -> ->. apply map_res_ok in M. destruct (Forall2_in_l _ _ _ _ M Ic) as (d' & Id' & Bd). destruct d as [|nmd chd srcd]; [inversion H; subst; discriminate|].
      cbn [build_node] in Bd. destruct (map_res (build_node pr (env_update e chd)) chd) as [chd'| | |] eqn:M2; cbn [bind] in Bd; try discriminate. injection Bd as <-.
      destruct (IH nmd chd srcd nm1 ch1 src1 (env_update e chd) chd' c eq_refl Ef (in_force_update _ _ _ _ F) M2 I1 Fi) as (e1 & c' & F1 & B1 & A).
      exists e1, c'. split; [exact F1|]. split; [exact B1|]. cbn [app n_name]. change nmd with (n_name (NDir nmd chd' srcd)) at 1. now econstructor.
  Qed.
End Origin.
Lemma build_run h osenv mode d st content out : snd (build h osenv mode d st) = Ok tt -> st_output (fst (build h osenv mode d st)) = Some out ->
  sd_ent d = Some content -> exists l input nm ch src ch', content = EDir l /\ create_from h (st_plugins st) true (sd_path d) (sd_name d) content = Ok input /\
    preprocess (build_pr h (cf_meta (st_config st)) (build_vars osenv mode) input) input = Ok (NDir nm ch src) /\
    map_res (build_node (build_pr h (cf_meta (st_config st)) (build_vars osenv mode) (NDir nm ch src))
      (env_update (env_update (Env (build_vars osenv mode) None None) ch) ch)) ch = Ok ch' /\ out = NDir nm ch' src.
Proof.
  unfold build. intros B O E. rewrite E in *. unfold node_new in *. destruct content as [|l|]; try discriminate.
  destruct (create_from h (st_plugins st) true (sd_path d) (sd_name d) (EDir l)) as [input|x|q|] eqn:C; try discriminate.
  fold (build_pr h (cf_meta (st_config st)) (build_vars osenv mode) input) in *.
  destruct (preprocess _ input) as [input'|x|q|] eqn:P; try discriminate.
  assert (T : build_tree h (cf_meta (st_config st)) (build_vars osenv mode) input = Ok (input', out)).
  { unfold build_tree in *. fold (build_pr h (cf_meta (st_config st)) (build_vars osenv mode) input) in *. rewrite P in *. cbn [bind] in *.
    destruct (n_children input'); [|discriminate].
    match goal with |- bind ?x _ = _ => destruct x as [out'|x'|q|] end; cbn [bind] in *; try discriminate. cbn in O. injection O as <-. reflexivity. }
  clear B O. unfold build_tree in T. fold (build_pr h (cf_meta (st_config st)) (build_vars osenv mode) input) in T. rewrite P in T. cbn [bind] in T.
  destruct input' as [|nm ch src]; [discriminate|]. cbn [n_children build_node] in T.
  match type of T with context [map_res ?f ch] => destruct (map_res f ch) as [ch'|x'|q|] eqn:BN end; cbn [bind] in T; try discriminate. injection T as <-.
  exists l, input, nm, ch, src, ch'. now repeat split.
Qed.
Lemma data_dir e d ks : data_part e d -> forall l, ent_at e ks (EDir l) -> exists l', ent_at d ks (EDir l').
Proof.
  revert e d. induction ks as [|k ks IH]; intros e d D l A; inversion A as [|l0 ? e1 ? ? I A']; subst.
  - inversion D; subst. eexists. constructor.
  - inversion D as [| |? l1 DS]; subst. assert (X : exists e1', In (k, e1') l1 /\ data_part e1 e1').
    { assert (NF : forall b, e1 <> EFile b) by (intros b ->; inversion A'). clear D A A'. revert l1 DS I.
      induction l0 as [|[j z] l0 IHl]; intros l1 DS I; [destruct I|].
      inversion DS as [|? b ? l' N1 N2 DS'|? b ? l' Y DS'|? ? e' ? l' NF' De DS']; subst; destruct I as [I|I].
      - injection I as -> <-. now destruct (NF b).
      - now apply IHl.
      - injection I as -> <-. now destruct (NF b).
      - destruct (IHl _ DS' I) as (e1' & I1 & De1). exists e1'. split; [now right|exact De1].
      - injection I as -> ->. exists e'. split; [now left|exact De].
      - destruct (IHl _ DS' I) as (e1' & I1 & De1). exists e1'. split; [now right|exact De1]. }
    destruct X as (e1' & I1 & De). destruct (IH _ _ De _ A') as (l' & A1). exists l'. econstructor; eassumption.
Qed.
Lemma dir_data e d ks : data_part e d -> forall l, ent_at d ks (EDir l) -> exists l', ent_at e ks (EDir l').
Proof.
  revert e d. induction ks as [|k ks IH]; intros e d D l A; inversion A as [|l0 ? e1 ? ? I A']; subst.
  - inversion D; subst. eexists. constructor.
  - inversion D as [| |l1 ? DS]; subst. assert (X : exists e1', In (k, e1') l1 /\ data_part e1' e1).
    { assert (NF : forall b, e1 <> EFile b) by (intros b ->; inversion A'). clear D A A'. revert l0 DS I.
      induction l1 as [|[j z] l1 IHl]; intros l0 DS I; [inversion DS; subst; destruct I|].
      inversion DS as [|? b ? l' N1 N2 DS'|? b ? l' Y DS'|? ? e' ? l' NF' De DS']; subst.
      - destruct (IHl _ DS' I) as (e1' & I1 & De1). exists e1'. split; [now right|exact De1].
      - destruct I as [I|I]; [injection I as -> <-; now destruct (NF b)|]. destruct (IHl _ DS' I) as (e1' & I1 & De1). exists e1'. split; [now right|exact De1].
      - destruct I as [I|I]; [injection I as -> ->; exists z; split; [now left|exact De]|]. destruct (IHl _ DS' I) as (e1' & I1 & De1). exists e1'. split; [now right|exact De1]. }
    destruct X as (e1' & I1 & De). destruct (IH _ _ De _ A') as (l' & A1). exists l'. econstructor; eassumption.
Qed.

(** ** Two sites with the same data *)
Lemma views_trans w1 w2 w3 : views w1 w2 -> views w2 w3 -> views w1 w3.
Proof.
  intros [H1 T1 F1 I1] [H2 T2 F2 I2]. split; [congruence|congruence| |].
  - intros t f st vs I T E. destruct (F1 _ _ _ _ I T E) as (vs' & E' & S). rewrite <- T1 in I. destruct (F2 _ _ _ _ I T E') as (vs2 & E2 & S2). exists vs2. split; [exact E2|congruence].
  - intros t v file s s' I T E. specialize (I1 _ _ _ _ _ I T E). rewrite <- T1 in I. exact (I2 _ _ _ _ _ I T I1).
Qed.
Lemma at_spine n ks m : at_names n ks m -> forall anc, exists anc', spine n anc ks anc' m.
Proof.
  induction 1 as [n|nm ch src c ks n Ic H IH]; intros anc; [exists anc; constructor|]. destruct (IH (ch :: anc)) as [anc' Sp]. exists anc'. now econstructor.
Qed.
Lemma preprocess_view pr pr' n : forall n', pr_views (fun _ => True) pr pr' -> preprocess pr n = Ok n' -> preprocess pr' n = Ok n'.
Proof.
  induction n as [name b p meta src|name ch src IH] using node_ind2; intros n' V; cbn [preprocess].
  - destruct p; auto. destruct (preprocess_markdown pr src m) as [m'|x|q|] eqn:E; cbn [map_err bind]; try discriminate. now rewrite (body_view _ _ _ _ _ _ V I E).
  - destruct (map_res (preprocess pr) ch) as [ch'|x|q|] eqn:M; cbn [bind]; try discriminate. intros E.
    assert (M' : map_res (preprocess pr') ch = Ok ch'); [|now rewrite M'].
    apply map_res_ok in M. apply map_res_ok. clear E. revert IH. induction M as [|c c' ch ch' Ec M IHM]; intros IH; [constructor|]. inversion IH as [|? ? I1 I2]; subst. constructor; [now apply I1|now apply IHM].
Qed.
Lemma created_source h ps p name b n0 : create_from_file h ps true p name b = Ok n0 -> n_source n0 = p /\ n_name n0 = name.
Proof. intros C. destruct (create_file_kind _ _ _ _ _ _ C) as (pc & -> & _). now split. Qed.
Lemma preprocess_source pr n n' : preprocess pr n = Ok n' -> n_source n' = n_source n /\ n_name n' = n_name n.
Proof.
  destruct n as [name b pc meta src|name ch src]; cbn [preprocess].
  - destruct pc; try (intros E; injection E as <-; now split). destruct (preprocess_markdown _ _ _); cbn [map_err bind]; try discriminate. intros E; injection E as <-; now split.
  - destruct (map_res _ ch); cbn [bind]; try discriminate. intros E; injection E as <-; now split.
Qed.

(** One side: the directory, the tree loaded from it and the tree once its markdown is rendered. *)
Definition site_of (h : host) (ps : list plugin) (vars : list (text * text)) (p : path) (nm : text) (meta : bool) (e : ent) (i i1 : node) : Prop :=
  ent_distinct e /\ (exists l, e = EDir l) /\ create_from h ps true p nm e = Ok i /\ preprocess (build_pr h meta vars i) i = Ok i1.
Section Two.
  Variables (h : host) (ps : list plugin) (vars : list (text * text)) (p : path) (nm : text).
  Lemma site_facts meta e i i1 : site_of h ps vars p nm meta e i i1 -> distinct i /\ distinct i1 /\ is_dir i = true /\ is_dir i1 = true /\
    stands (ready_as h ps (build_pr h meta vars i)) nm e i1.
  Proof.
    intros (D & (l & ->) & C & P). assert (S := create_stands _ _ _ _ _ _ C). assert (S1 := preprocess_stands _ _ _ _ _ _ _ S P).
    split; [eapply stands_distinct; eassumption|]. split; [eapply stands_distinct; eassumption|].
    split; [inversion S; subst; reflexivity|]. split; [inversion S1; subst; reflexivity|exact S1].
  Qed.
  Lemma pr_prune meta meta' i i' : distinct i -> distinct i' -> is_dir i = true -> is_dir i' = true -> prune i = prune i' ->
    pr_views (fun _ => True) (build_pr h meta vars i) (build_pr h meta' vars i').
  Proof.
    intros D D' K K' E. split; [reflexivity|]. split; [reflexivity|]. exists i, i'. split; [reflexivity|]. split; [reflexivity|]. intros toks _.
    eapply views_trans; [apply prune_view; assumption|]. rewrite E. now apply view_prune.
  Qed.
  Lemma pruned_input meta meta' e e' i i' i1 i1' : site_of h ps vars p nm meta e i i1 -> site_of h ps vars p nm meta' e' i' i1' -> same_data e e' -> prune i = prune i'.
  Proof.
    intros (_ & _ & C & _) (_ & _ & C' & _) (d & D & D'). pose proof (create_data _ _ _ _ _ _ _ D C) as A. pose proof (create_data _ _ _ _ _ _ _ D' C') as A'. congruence.
  Qed.
  Lemma pruned_ready meta meta' e e' i i' i1 i1' : site_of h ps vars p nm meta e i i1 -> site_of h ps vars p nm meta' e' i' i1' -> same_data e e' -> prune i1 = prune i1'.
  Proof.
    intros S S' D. pose proof (pruned_input _ _ _ _ _ _ _ _ S S' D) as E.
    destruct (site_facts _ _ _ _ S) as (Di & _ & Ki & _). destruct (site_facts _ _ _ _ S') as (Di' & _ & Ki' & _).
    destruct S as (_ & _ & _ & P). destruct S' as (_ & _ & _ & P').
    assert (V : forall m j, distinct j -> is_dir j = true -> pr_views (fun _ => True) (build_pr h m vars j) (build_pr h false vars (prune j))).
    { intros m j Dj Kj. split; [reflexivity|]. split; [reflexivity|]. exists j, (prune j). split; [reflexivity|]. split; [reflexivity|]. intros toks _. now apply prune_view. }
    destruct (preprocess_prune _ _ (V meta i Di Ki) _ _ P) as [_ A]. destruct (preprocess_prune _ _ (V meta' i' Di' Ki') _ _ P') as [_ A'].
    rewrite <- E in A'. congruence.
  Qed.
  (** The same file in both. *)
  Lemma same_file meta meta' e e' i i' i1 i1' ks b anc f : site_of h ps vars p nm meta e i i1 -> site_of h ps vars p nm meta' e' i' i1' -> same_data e e' ->
    ks <> [] -> ent_at e ks (EFile b) -> ent_at e' ks (EFile b) -> spine i1 [] ks anc f -> exists anc', spine i1' [] ks anc' f.
  Proof.
    intros S S' D NE A A' Sp. pose proof (pruned_input _ _ _ _ _ _ _ _ S S' D) as E.
    destruct (site_facts _ _ _ _ S) as (Di & D1 & Ki & _ & St). destruct (site_facts _ _ _ _ S') as (Di' & D1' & Ki' & _ & St').
    destruct (stands_at _ _ _ _ A nm i1 [] St) as (anc0 & f0 & k0 & Sp0 & Sf0). destruct (spine_unique _ _ _ _ _ Sp D1 _ _ Sp0) as [<- <-].
    assert (Ff : is_file f = true) by (inversion Sf0; assumption).
    destruct (stands_at _ _ _ _ A' nm i1' [] St') as (anc' & f' & k' & Sp' & Sf'). assert (Ff' : is_file f' = true) by (inversion Sf'; assumption).
    destruct S as (De & _ & C & P). destruct S' as (De' & _ & C' & P').
    destruct (loaded_at _ _ _ _ _ _ _ _ Sp Ff _ _ _ _ C P) as (b1 & n0 & A1 & B1 & Q1).
    destruct (loaded_at _ _ _ _ _ _ _ _ Sp' Ff' _ _ _ _ C' P') as (b2 & n0' & A2 & B2 & Q2).
    assert (X := ent_unique _ _ _ A De _ A1). injection X as <-. assert (X := ent_unique _ _ _ A' De' _ A2). injection X as <-.
    rewrite B1 in B2. injection B2 as <-. pose proof (preprocess_view _ _ _ _ (pr_prune meta meta' i i' Di Di' Ki Ki' E) Q1) as Q. rewrite Q in Q2. injection Q2 as <-. now exists anc'.
  Qed.
  Lemma same_tmpl meta meta' e e' i i' i1 i1' ks1 t r : site_of h ps vars p nm meta e i i1 -> site_of h ps vars p nm meta' e' i' i1' -> same_data e e' ->
    (forall b, ent_at e (ks1 ++ [t]) (EFile b) -> ent_at e' (ks1 ++ [t]) (EFile b)) -> tmpl i1 (ks1 ++ [t]) r -> tmpl i1' (ks1 ++ [t]) r.
  Proof.
    intros S S' D T (m & A & <-). destruct (at_spine _ _ _ A []) as [anc Sp].
    destruct (site_facts _ _ _ _ S) as (_ & _ & _ & _ & St). destruct (site_facts _ _ _ _ S') as (_ & _ & _ & _ & St').
    destruct (spine_stands _ _ _ _ _ _ Sp _ _ St) as (k & x & Ax & Sx). inversion Sx as [? b ? R N F|? l ch src F]; subst.
    - assert (NE : ks1 ++ [t] <> []) by now destruct ks1. destruct (same_file _ _ _ _ _ _ _ _ _ b _ _ S S' D NE Ax (T b Ax) Sp) as [anc' Sp']. exists m. split; [eapply spine_at; exact Sp'|reflexivity].
    - destruct D as (d & D1 & D2). destruct (data_dir _ _ _ D1 _ Ax) as [l1 B1]. destruct (dir_data _ _ _ D2 _ B1) as [l2 B2].
      destruct (stands_dir _ _ _ _ B2 _ _ [] St') as (anc' & nm' & ch' & src' & Sp' & _). exists (NDir nm' ch' src'). split; [eapply spine_at; exact Sp'|reflexivity].
  Qed.
End Two.
Lemma same_data_sym e e' : same_data e e' -> same_data e' e.
Proof. intros (d & A & B). now exists d. Qed.
Lemma local_page h osenv mode d d' st st' e e' out out' :
  snd (build h osenv mode d st) = Ok tt -> st_output (fst (build h osenv mode d st)) = Some out -> sd_ent d = Some e ->
  snd (build h osenv mode d' st') = Ok tt -> st_output (fst (build h osenv mode d' st')) = Some out' -> sd_ent d' = Some e' ->
  sd_path d' = sd_path d -> sd_name d' = sd_name d -> st_plugins st' = st_plugins st -> ent_distinct e -> ent_distinct e' -> same_data e e' ->
  forall ks name b, ent_at e (ks ++ [name]) (EFile b) -> ent_at e' (ks ++ [name]) (EFile b) -> same_templates e e' ks ->
  forall nm o, page_from out ks (sd_path d ++ ks ++ [name]) nm o -> page_from out' ks (sd_path d ++ ks ++ [name]) nm o.
Proof.
  intros B O E B' O' E' Pa Na Pl De De' D ks name b A A' T nm o (pc & mt & At).
  destruct (build_run _ _ _ _ _ _ _ B O E) as (l & i & rn & ch & src & ch1 & El & C & P & M & ->).
  destruct (build_run _ _ _ _ _ _ _ B' O' E') as (l' & i' & rn' & ch' & src' & ch1' & El' & C' & P' & M' & ->).
  rewrite Pa, Na, Pl in C'. set (vars := build_vars osenv mode) in *.
  assert (S : site_of h (st_plugins st) vars (sd_path d) (sd_name d) (cf_meta (st_config st)) e i (NDir rn ch src)) by (repeat split; try assumption; now exists l).
  assert (S' : site_of h (st_plugins st) vars (sd_path d) (sd_name d) (cf_meta (st_config st')) e' i' (NDir rn' ch' src')) by (repeat split; try assumption; now exists l').
  destruct (site_facts _ _ _ _ _ _ _ _ _ S) as (Di & D1 & Ki & K1 & St). destruct (site_facts _ _ _ _ _ _ _ _ _ S') as (Di' & D1' & Ki' & K1' & St').
  assert (F0 : forall c, in_force vars [c] (env_update (env_update (Env vars None None) c) c)).
  { intros c. apply in_force_again, in_force_update. repeat split; constructor. }
  remember (ks ++ [nm]) as kk eqn:Ek. inversion At as [|? ? ? c1 ks' ? Ic1 At']; subst.
  match goal with H : _ :: _ = ks ++ [nm] |- _ => rename H into Ek end.
  destruct (origin _ vars (NDir rn ch src) _ [] [] rn ch src _ ch1 eq_refl (sp_here _ _) (F0 ch) M _ _ _ _ _ _ _ Ic1 At')
    as (dirs & anc1 & nm1 & chp & src1 & c & e1 & Ed & Sp & Ic & Fc & Fo & Bc). cbn [app] in Sp.
  rewrite Ek in Ed. apply app_inj_tail in Ed. destruct Ed as [<- _].
  assert (Spc : spine (NDir rn ch src) [] (ks ++ [n_name c]) (chp :: anc1) c) by (eapply spine_app; [exact Sp|]; econstructor; [exact Ic|constructor]).
  destruct (loaded_at _ _ _ _ _ _ _ _ Spc Fc _ _ _ _ C P) as (b1 & n0 & A1 & B1 & Q1).
  destruct (created_source _ _ _ _ _ _ B1) as [Sn0 _]. destruct (preprocess_source _ _ _ Q1) as [Sc Nc]. rewrite Sn0 in Sc.
  destruct c as [cn cb cp cm cs|]; [|discriminate]. cbn [n_source n_name build_node] in *.
  destruct (process_view _ (build_pr h (cf_meta (st_config st')) vars (NDir rn' ch' src')) _ _ _ _ _ _
    (pr_prune h vars _ _ _ _ D1 D1' K1 K1' (pruned_ready _ _ _ _ _ _ _ _ _ _ _ _ _ S S' D)) Bc) as (x1 & x2 & x3 & meta' & Ex & Bc'). injection Ex as <- <- -> <- Es.
  assert (cn = name) as ->. { rewrite <- Es in Sc. apply app_inv_head in Sc. apply app_inv_head in Sc. now injection Sc. }
  assert (NE : ks ++ [name] <> []) by now destruct ks.
  destruct (same_file _ _ _ _ _ _ _ _ _ _ _ _ _ _ _ _ _ S S' D NE A A' Spc) as [anc' Spc'].
  destruct (spine_split _ _ _ _ _ _ Spc') as (anc1' & dd & Sp' & Sl). inversion Sl as [|nm1' chp' src1' c2 ? ? ? ? Ic2 Sl2]; subst. inversion Sl2; subst.
  match goal with H : c2 = NFile (n_name c2) _ _ _ _, K : n_name c2 = _ |- _ => rewrite K in H; clear K; clear Sl2; subst c2 end.
  destruct (reach (build_pr h (cf_meta (st_config st')) vars (NDir rn' ch' src')) vars _ _ _ _ _ Sp' _ _ _ _ _ _ _ _ _ eq_refl eq_refl (F0 ch') M' Ic2 eq_refl) as (e1' & c3 & Fo' & Bc3 & At3).
  assert (Al : Forall2 alike_in (chp :: anc1) (chp' :: anc1')).
  { eapply (spine_alike _ _ _ _ _ Sp); [reflexivity|exact D1|exact Sp'|exact D1'|constructor|]. intros ks1 ks2 t r Ek2 It. split; intros Tm.
    - eapply same_tmpl; [exact S|exact S'|exact D| |exact Tm]. intros bb. apply (T ks1 ks2 t bb Ek2 It).
    - eapply same_tmpl; [exact S'|exact S|now apply same_data_sym| |exact Tm]. intros bb. apply (T ks1 ks2 t bb Ek2 It). }
  assert (Ee : e1' = e1).
  { destruct (spine_distinct _ _ _ _ _ Sp' D1') as [Dd Da]; [constructor|]. inversion Dd as [|? ? ? Dn _]; subst.
    assert (Dall : Forall (fun c => NoDup (map n_name c)) (chp' :: anc1')) by now constructor.
    destruct Fo as (V & R & Md). destruct Fo' as (V' & R' & Md'). destruct e1 as [v1 r1 m1], e1' as [v1' r1' m1']. cbn [ev_vars ev_root ev_md] in *.
    assert (r1' = r1) by (eapply template_unique; [exact Dall|exact R'|]; eapply template_alike; [now left|exact R|exact Al]).
    assert (m1' = m1) by (eapply template_unique; [exact Dall|exact Md'|]; eapply template_alike; [now right|exact Md|exact Al]). congruence. }
  subst e1'. cbn [build_node] in Bc3. rewrite Bc' in Bc3. injection Bc3 as <-. exists PNone, meta'. exact At3.
Qed.

(** ** Editing one file *)
Lemma data_total e : exists d, data_part e d.
Proof.
  induction e as [b| |l IH] using ent_ind2; [eexists; constructor|eexists; constructor|].
  assert (X : exists l', data_parts l l').
  { induction l as [|[k e] l IHl]; [eexists; constructor|]. inversion IH as [|? ? (d & D) I2]; subst. cbn [snd] in D. destruct (IHl I2) as [l' L].
    destruct e as [b|l0|].
    - destruct (extension k) as [x|] eqn:X.
      + apply extension_spec in X. destruct (text_eqb x (lit "md")) eqn:E1; [apply text_eqb_eq in E1; subst x; eexists; apply ds_keep; [now left|exact L]|].
        destruct (text_eqb x (lit "json")) eqn:E2; [apply text_eqb_eq in E2; subst x; eexists; apply ds_keep; [now right|exact L]|].
        apply text_eqb_neq in E1, E2. eexists. apply ds_drop; [| |exact L]; intros Y; pose proof (has_ext_unique _ _ _ X Y); contradiction.
      + eexists. apply ds_drop; [| |exact L]; intros Y; apply extension_spec in Y; congruence.
    - eexists. apply ds_down; [discriminate|exact D|exact L].
    - eexists. apply ds_down; [discriminate|exact D|exact L]. }
  destruct X as [l' L]. exists (EDir l'). now constructor.
Qed.
Lemma data_parts_app l1 d1 l2 d2 : data_parts l1 d1 -> data_parts l2 d2 -> data_parts (l1 ++ l2) (d1 ++ d2).
Proof.
  revert d1. induction l1 as [|[k e] l1 IH]; intros d1 D1 D2; inversion D1; subst; cbn [app]; auto.
  - apply ds_drop; auto.
  - apply ds_keep; auto.
  - apply ds_down; auto.
Qed.
Lemma parts_total l : exists l', data_parts l l'.
Proof. destruct (data_total (EDir l)) as [d D]. inversion D; subst. eauto. Qed.
Lemma edited_dir qs qn e e' : edited qs qn e e' -> (forall b, e <> EFile b) /\ (forall b, e' <> EFile b).
Proof. destruct 1; split; discriminate. Qed.
Lemma edited_data qs qn e e' : edited qs qn e e' -> ~ has_ext qn (lit "md") -> ~ has_ext qn (lit "json") -> same_data e e'.
Proof.
  intros Ed N1 N2. induction Ed as [name b b' l1 l2|k ks name e e' l1 l2 Ed IH].
  - destruct (parts_total l1) as [d1 D1], (parts_total l2) as [d2 D2]. exists (EDir (d1 ++ d2)). split; constructor; apply data_parts_app; auto; now apply ds_drop.
  - destruct (IH N1 N2) as (d & D & D'). destruct (parts_total l1) as [d1 D1], (parts_total l2) as [d2 D2]. destruct (edited_dir _ _ _ _ Ed) as [F F'].
    exists (EDir (d1 ++ (k, d) :: d2)). split; constructor; apply data_parts_app; auto; now apply ds_down.
Qed.
Lemma edited_sym qs qn e e' : edited qs qn e e' -> edited qs qn e' e.
Proof. induction 1; now constructor. Qed.
Lemma edited_at qs qn e e' : edited qs qn e e' -> forall ks b, ks <> qs ++ [qn] -> ent_at e ks (EFile b) -> ent_at e' ks (EFile b).
Proof.
  induction 1 as [name b0 b0' l1 l2|k qs name e e' l1 l2 Ed IH]; intros ks b N A; inversion A as [|l ? x ks' ? I A']; subst.
  - apply in_app_or in I. destruct I as [I|[I|I]].
    + econstructor; [apply in_or_app; left; exact I|exact A'].
    + injection I as <- <-. inversion A'; subst. now destruct N.
    + econstructor; [apply in_or_app; right; right; exact I|exact A'].
  - apply in_app_or in I. destruct I as [I|[I|I]].
    + econstructor; [apply in_or_app; left; exact I|exact A'].
    + injection I as <- <-. econstructor; [apply in_or_app; right; now left|]. apply IH; [|exact A']. intros ->. now destruct N.
    + econstructor; [apply in_or_app; right; right; exact I|exact A'].
Qed.
Lemma edited_distinct qs qn e e' : edited qs qn e e' -> ent_distinct e -> ent_distinct e'.
Proof.
  induction 1 as [name b0 b0' l1 l2|k qs name e e' l1 l2 Ed IH]; intros D; inversion D as [| |? D1 D2]; subst; constructor; try (rewrite map_app in *; exact D1);
    apply Forall_app in D2 as [F1 F2]; inversion F2 as [|? ? X F3]; subst; apply Forall_app; split; auto; constructor; auto. constructor.
Qed.
Lemma edit_page h osenv mode d d' st st' e e' out out' qs qn :
  snd (build h osenv mode d st) = Ok tt -> st_output (fst (build h osenv mode d st)) = Some out -> sd_ent d = Some e ->
  snd (build h osenv mode d' st') = Ok tt -> st_output (fst (build h osenv mode d' st')) = Some out' -> sd_ent d' = Some e' ->
  sd_path d' = sd_path d -> sd_name d' = sd_name d -> st_plugins st' = st_plugins st -> ent_distinct e -> edited qs qn e e' ->
  ~ has_ext qn (lit "md") -> ~ has_ext qn (lit "json") ->
  forall ks name b, ks ++ [name] <> qs ++ [qn] -> (is_template qn -> forall ks2, ks <> qs ++ ks2) -> ent_at e (ks ++ [name]) (EFile b) ->
  forall nm o, page_from out ks (sd_path d ++ ks ++ [name]) nm o <-> page_from out' ks (sd_path d ++ ks ++ [name]) nm o.
Proof.
  intros B O E B' O' E' Pa Na Pl De Ed N1 N2 ks name b NE NT A nm o.
  assert (De' := edited_distinct _ _ _ _ Ed De). assert (D := edited_data _ _ _ _ Ed N1 N2). assert (A' := edited_at _ _ _ _ Ed _ _ NE A).
  assert (T : same_templates e e' ks).
  { intros ks1 ks2 t bb -> It. assert (N : ks1 ++ [t] <> qs ++ [qn]). { intros X. apply app_inj_tail in X as [-> ->]. now apply (NT It ks2). }
    split; [now apply (edited_at _ _ _ _ Ed)|]. apply (edited_at _ _ _ _ (edited_sym _ _ _ _ Ed)). exact N. }
  split.
  - eapply (local_page h osenv mode d d' st st'); eassumption.
  - rewrite <- Pa. eapply (local_page h osenv mode d' d st' st); try eassumption; try (symmetry; assumption); [now apply same_data_sym|].
    intros ks1 ks2 t bb Ek It. symmetry. now apply (T ks1 ks2).
Qed.
