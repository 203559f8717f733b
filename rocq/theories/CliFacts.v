(** CliFacts.v -- the build command of the program (C41 to C44, C49). *)

From Coq Require Import String List NArith ZArith Bool Lia.
From Verif Require Import Text Json Base Syntax Parse Tree Interp Build Disk Cli SpecScope SpecTree SpecDisk SpecProject.
From Verif Require Import TextFacts ScopeFacts TreeFacts PathFacts MergeFacts BuilderFacts DiskFacts SaveFacts ProjectFacts.
Import ListNotations.

(** ** Scripts *)
Lemma run_scripts_ran sc l : forall d d1, run_scripts sc l d = (d1, None) <-> ran sc l d d1.
Proof.
  induction l as [|n l IH]; intros d d1; cbn [run_scripts].
  - split; [intros E; injection E as <-; constructor|]. now inversion 1.
  - split.
    + destruct (sc n d) as [d2 r] eqn:S. destruct r; try discriminate. intros E. apply ra_cons with d2; [exact S|]. now apply IH.
    + inversion 1 as [|? ? ? d2 ? S R]; subst. rewrite S. now apply IH.
Qed.
Lemma run_scripts_leave sc l P d q : scripts_leave sc l P -> P q -> what q (fst (run_scripts sc l d)) = what q d.
Proof.
  intros SL PQ. revert d. induction l as [|n l IH]; intros d; cbn [run_scripts]; [reflexivity|].
  pose proof (SL n d q (or_introl eq_refl) PQ) as H. destruct (sc n d) as [d2 r]. cbn [fst] in H.
  assert (IH' : what q (fst (run_scripts sc l d2)) = what q d2) by (apply IH; intros x y z I; apply SL; now right).
  destruct r; cbn [fst]; [now rewrite IH'|exact H|exact H].
Qed.

(** ** The tree that is saved *)
Lemma merge_dirs_output h dir d names : forall st st' out0, st_output st = Some out0 -> merge_dirs h dir names d st = (st', Ok tt) ->
  exists out, st_output st' = Some out /\ st_config st' = st_config st /\ st_plugins st' = st_plugins st /\ kept out0 out /\ (is_dir out0 = true -> is_dir out = true) /\
    (forall n e, In n names -> lookup (dir ++ [n]) d = Some e -> exists l t, e = EDir l /\ create_from h [] false (dir ++ [n]) n e = Ok t /\ kept t out) /\
    (forall cf, tame_tree cf out0 -> (forall n, In n names -> names_at plain (dir ++ [n]) d) -> tame_tree cf out).
Proof.
  induction names as [|n names IH]; intros st st' out0 O M; cbn [merge_dirs] in M.
  - injection M as <-. exists out0. repeat split; auto. apply kept_refl. intros n e [].
  - destruct (lookup (dir ++ [n]) d) as [e|] eqn:L.
    + unfold node_new in M. destruct e as [|l|]; try discriminate. destruct (create_from h [] false (dir ++ [n]) n (EDir l)) as [t| | |] eqn:C; try discriminate.
      unfold merge_output in M. rewrite O in M. destruct (merge out0 t) as [out1 o] eqn:MG. destruct o; try discriminate.
      assert (IH' := fun X => IH _ _ out1 X M). destruct (IH' eq_refl) as (out & O' & Cf & Pl & K & D & S & T). exists out. cbn [st_config st_plugins] in Cf, Pl.
      pose proof (merge_all_good t out0 out1 MG) as (K0 & K1 & _).
      split; [exact O'|]. split; [exact Cf|]. split; [exact Pl|]. split; [now apply (kept_trans _ out1)|]. split.
      { intros H. apply D. pose proof (merge_name out0 t) as [_ N]. rewrite MG in N. cbn [fst] in N. now rewrite N. }
      split.
      * intros n' e' [<-|I] L'; [|now apply S]. rewrite L in L'. injection L' as <-. exists l, t. split; [reflexivity|]. split; [exact C|]. now apply (kept_trans _ out1).
      * intros cf T0 NA. apply T; [|intros n' I; apply NA; now right]. apply (tame_merge cf out0 t out1 MG T0). apply (tame_static_tree h cf _ _ _ _ C).
        apply (NA n (or_introl eq_refl)). exact L.
    + destruct (IH st st' out0 O M) as (out & O' & Cf & Pl & K & D & S & T). exists out. repeat (split; [assumption|]). split.
      * intros n' e' [<-|I] L'; [congruence|now apply S].
      * intros cf T0 NA. apply T; [exact T0|]. intros n' I. apply NA. now right.
Qed.
Lemma built_dir h osenv mode d st : snd (build h osenv mode d st) = Ok tt -> exists l out, sd_ent d = Some (EDir l) /\
  st_output (fst (build h osenv mode d st)) = Some out /\ is_dir out = true /\ built_from (st_plugins st) (sd_name d) (EDir l) out.
Proof.
  intros B. assert (exists l, sd_ent d = Some (EDir l)) as [l L].
  { unfold build, node_new in B. destruct (sd_ent d) as [[|l|]|]; try discriminate. now exists l. }
  assert (exists out, st_output (fst (build h osenv mode d st)) = Some out) as [out O].
  { clear L. revert B. unfold build. destruct (node_new _ _ _ _ _ _); try discriminate. destruct (preprocess _ _); try discriminate.
    destruct (build_tree _ _ _ _) as [[i o]| | |]; try discriminate. intros _. now exists o. }
  exists l, out. split; [exact L|]. split; [exact O|]. destruct (built_output _ _ _ _ _ _ B O) as (e & E & F). rewrite L in E. injection E as <-.
  split; [|exact F]. now inversion F.
Qed.
Lemma merged_output m c d st : build_and_merge m c d = (st, Ok tt) ->
  exists out, st_output st = Some out /\ is_dir out = true /\ st_config st = st_config (cx_stuart c) /\ st_plugins st = st_plugins (cx_stuart c) /\
    (forall n e, In n [lit "static"; lit "temp"] -> lookup (cx_dir c ++ [n]) d = Some e ->
       exists l t, e = EDir l /\ create_from (m_host m) [] false (cx_dir c ++ [n]) n e = Ok t /\ kept t out) /\
    (forall cf, inward_project c d -> tame_tree cf out).
Proof.
  unfold build_and_merge. destruct (build _ _ _ _ _) as [st1 r] eqn:B. destruct r as [u| | |]; try discriminate. intros M.
  assert (S1 : snd (build (m_host m) (m_osenv m) (cx_mode c) (source_at (cx_dir c ++ [lit "content"]) d) (cx_stuart c)) = Ok tt) by (rewrite B; now destruct u).
  destruct (built_dir _ _ _ _ _ S1) as (l & out0 & L & O & D & F). pose proof (build_kept (m_host m) (m_osenv m) (cx_mode c) (source_at (cx_dir c ++ [lit "content"]) d) (cx_stuart c)) as (Cf & Pl & _).
  rewrite B in O, Cf, Pl. cbn [fst] in O, Cf, Pl. destruct (merge_dirs_output _ _ _ _ _ _ out0 O M) as (out & O' & Cf' & Pl' & K & D' & S & T).
  exists out. split; [exact O'|]. split; [now apply D'|]. split; [now rewrite Cf'|]. split; [now rewrite Pl'|]. split; [exact S|].
  intros cf (NC & NS & NT & NP). apply T.
  - eapply tame_built_tree; [exact NP|exact F|]. apply NC. exact L.
  - intros n [<-|[<-|[]]]; assumption.
Qed.

(** ** Paths that a build leaves alone *)
Lemma remove_temp_outside f p d : same_outside p d (remove_temp f p d).
Proof.
  unfold remove_temp. intros q N. destruct f as [junk|]; [now apply update_outside|]. unfold rmtree. destruct p as [|c p]; [reflexivity|].
  destruct (lookup (c :: p) d) as [[|l|]|]; try reflexivity. exact (update_outside (c :: p) q None d N).
Qed.
Lemma save_metadata_outside ser f st p d : same_outside p d (fst (save_metadata ser f st p d)).
Proof.
  unfold save_metadata. destruct (metadata_value st) as [v| | |]; try apply same_outside_refl.
  pose proof (run_ops_outside p [OWrite p (ser v)]) as H. specialize (H ltac:(constructor; [apply above_refl|constructor]) f d).
  destruct (run_ops f _ d). exact H.
Qed.
Lemma build_leaves m f c d q : (forall d1, ran (m_script m) (cx_pre c) d d1 -> inward_project c d1) ->
  scripts_leave (m_script m) (cx_pre c) (eq q) -> scripts_leave (m_script m) (cx_post c) (eq q) ->
  ~ above (output_dir c) q -> ~ above (cx_dir c ++ [lit "temp"]) q -> ~ above (cx_dir c ++ [lit "metadata.json"]) q ->
  what q (snd (fst (cli_build m f c d))) = what q d.
Proof.
  intros IP L1 L2 NO NT NM. unfold cli_build.
  pose proof (run_scripts_leave _ _ _ d q L1 eq_refl) as W1. destruct (run_scripts _ (cx_pre c) d) as [d1 [e|]] eqn:R1; cbn [fst snd] in *; [exact W1|].
  apply run_scripts_ran in R1. specialize (IP d1 R1).
  destruct (build_and_merge m c d1) as [st1 r] eqn:B. destruct r as [u| | |]; cbn [fst snd]; try exact W1. destruct u.
  destruct (merged_output _ _ _ _ B) as (out & O & D & Cf & Pl & _ & T). specialize (T (st_config st1) IP).
  set (d2 := remove_temp _ _ _). assert (W2 : what q d2 = what q d1) by (now apply remove_temp_outside). clearbody d2.
  pose proof (save_outside (fl_save f) st1 (output_dir c) d2 out O T q NO) as W3. unfold output_dir in W3.
  destruct (save (fl_save f) st1 _ d2) as [d3 r]. cbn [fst] in W3.
  assert (W13 : what q d3 = what q d) by (rewrite W3, W2; exact W1).
  destruct r as [u| | |]; cbn [fst snd]; try exact W13.
  set (w := if cf_meta _ then _ else _). assert (W4 : what q (fst w) = what q d3).
  { subst w. destruct (cf_meta _); [|reflexivity]. now apply save_metadata_outside. }
  clearbody w. destruct w as [d4 r4]. cbn [fst] in W4. destruct r4 as [u4| | |]; cbn [fst snd]; try (now rewrite W4).
  pose proof (run_scripts_leave _ _ _ d4 q L2 eq_refl) as W5. destruct (run_scripts _ (cx_post c) d4) as [d5 [e|]]; cbn [fst snd] in *; now rewrite W5, W4.
Qed.

(** ** Failures before saving *)
Lemma metadata_errors st : cf_meta (st_config st) = true -> st_output st <> None -> forall e, metadata_value st <> Err e.
Proof.
  intros M O e. unfold metadata_value. rewrite M. cbn [negb]. destruct (st_output st) as [out|]; [|contradiction].
  assert (G : forall n b x, metadata_recur b n <> Err x).
  { clear. induction n as [name b pc meta src|name ch src IH] using node_ind2; intros first x; cbn [metadata_recur].
    - destruct meta as [[]|]; discriminate.
    - destruct (map_res (metadata_recur false) ch) as [vs| | |] eqn:E; try discriminate. exfalso. clear - IH E. revert E.
      induction IH as [|c ch H _ IHch]; cbn [map_res]; [discriminate|]. destruct (metadata_recur false c) eqn:F; cbn [bind]; try discriminate.
      + destruct (map_res _ ch) as [| | |] eqn:G; cbn [bind]; try discriminate. intros X; injection X as ->. now apply IHch.
      + intros X. now apply H in F. }
  destruct (metadata_recur true out) eqn:E; cbn [bind]; try discriminate. now apply G in E.
Qed.
Lemma error_unchanged m f c d c' d' e d1 : cli_build m f c d = (c', d', CErr (CE e)) -> e <> E_Fs FE_Write -> ran (m_script m) (cx_pre c) d d1 -> d' = d1.
Proof.
  intros B NE R. apply run_scripts_ran in R. unfold cli_build in B. rewrite R in B.
  destruct (build_and_merge m c d1) as [st1 r] eqn:BM. destruct r as [u|x|p|]; try (injection B as _ <- _; reflexivity). destruct u.
  destruct (merged_output _ _ _ _ BM) as (out & O & D & _). set (d2 := remove_temp _ _ _) in B. clearbody d2. exfalso.
  unfold save in B. rewrite O in B. destruct out as [|name ch src]; [discriminate|]. cbn [save_ops] in B.
  destruct (run_ops _ _ d2) as [d3 ok]. destruct ok; [|injection B as _ _ B; congruence].
  destruct (cf_meta (st_config st1)) eqn:CM.
  - unfold save_metadata in B. destruct (metadata_value st1) as [v|x|p|] eqn:MV; [|now apply (metadata_errors st1 CM) in MV; [|rewrite O]|discriminate|discriminate].
    destruct (run_ops _ _ d3) as [d4 ok]. destruct ok; [|injection B as _ _ B; congruence].
    destruct (run_scripts _ _ d4) as [d5 [z|]] eqn:RS; [|discriminate]. injection B as _ _ B. subst z. clear - RS. revert d4 RS. induction (cx_post c) as [|n l IH]; intros d4; cbn [run_scripts]; [discriminate|].
    destruct (m_script m n d4) as [d6 []]; [apply IH|discriminate|discriminate].
  - destruct (run_scripts _ _ d3) as [d5 [z|]] eqn:RS; [|discriminate]. injection B as _ _ B. subst z. clear - RS. revert d3 RS. induction (cx_post c) as [|n l IH]; intros d4; cbn [run_scripts]; [discriminate|].
    destruct (m_script m n d4) as [d6 []]; [apply IH|discriminate|discriminate].
Qed.
Lemma panic_unchanged m f c d c' d' p d1 : cli_build m f c d = (c', d', CPanic p) -> p <> Pn_meta_object -> ran (m_script m) (cx_pre c) d d1 -> d' = d1.
Proof.
  intros B NE R. apply run_scripts_ran in R. unfold cli_build in B. rewrite R in B.
  destruct (build_and_merge m c d1) as [st1 r] eqn:BM. destruct r as [u|x|p'|]; try (injection B as _ <- _; reflexivity). destruct u.
  destruct (merged_output _ _ _ _ BM) as (out & O & D & _). set (d2 := remove_temp _ _ _) in B. clearbody d2. exfalso.
  unfold save in B. rewrite O in B. destruct out as [|name ch src]; [discriminate|]. cbn [save_ops] in B.
  destruct (run_ops _ _ d2) as [d3 ok]. destruct ok; [|discriminate].
  destruct (cf_meta (st_config st1)) eqn:CM.
  - unfold save_metadata in B. destruct (metadata_value st1) as [v|x|p'|] eqn:MV; try discriminate.
    + destruct (run_ops _ _ d3) as [d4 ok]. destruct ok; [|discriminate]. destruct (run_scripts _ _ d4) as [d5 [z|]]; discriminate.
    + injection B as _ _ ->. unfold metadata_value in MV. rewrite CM, O in MV. cbn [negb] in MV.
      assert (G : forall n b x, metadata_recur b n = Panic x -> x = Pn_meta_object).
      { clear. induction n as [name b pc meta src|name ch src IH] using node_ind2; intros first x; cbn [metadata_recur].
        - destruct meta as [[]|]; try discriminate; congruence.
        - destruct (map_res (metadata_recur false) ch) as [vs| | |] eqn:E; cbn [bind]; try discriminate. intros X; injection X as ->. revert E.
          induction IH as [|c ch H _ IHch]; cbn [map_res]; [discriminate|]. destruct (metadata_recur false c) eqn:F; cbn [bind]; try discriminate.
          + destruct (map_res _ ch) as [| | |] eqn:G; cbn [bind]; try discriminate. intros X; injection X as ->. now apply IHch.
          + intros X; injection X as ->. now apply H in F. }
      match type of MV with bind ?x _ = _ => destruct x eqn:E end; cbn [bind] in MV; try discriminate. injection MV as ->. now apply G in E.
  - destruct (run_scripts _ _ d3) as [d5 [z|]]; discriminate.
Qed.
Lemma failed_build m f c d d1 : ran (m_script m) (cx_pre c) d d1 -> snd (build_and_merge m c d1) <> Ok tt ->
  snd (fst (cli_build m f c d)) = d1 /\ snd (cli_build m f c d) = of_res (snd (build_and_merge m c d1)).
Proof.
  intros R B. apply run_scripts_ran in R. unfold cli_build. rewrite R. destruct (build_and_merge m c d1) as [st1 r]. cbn [snd] in *. destruct r as [[]| | |]; [contradiction| | |]; now split.
Qed.

(** ** Static files *)
Lemma static_node h e : forall p name n ks b, create_from h [] false p name e = Ok n -> lookup ks e = Some (EFile b) ->
  exists k src, at_names n ks (NFile k b PIgnored None src).
Proof.
  induction e as [b0| |l IH] using ent_ind2; intros p name n ks b C L; [|discriminate|].
  - destruct ks; [|discriminate]. cbn in L. injection L as ->. cbn [create_from] in C. rewrite create_file_static in C. injection C as <-. eexists _, _. constructor.
  - cbn [create_from] in C. destruct (map_res _ l) as [ch| | |] eqn:M; try discriminate. cbn [bind] in C. injection C as <-.
    destruct ks as [|k ks]; [discriminate|]. cbn [lookup] in L. destruct (assoc k l) as [x|] eqn:A; [|discriminate]. apply assoc_in in A.
    apply map_res_ok in M. destruct (Forall2_in_l _ _ _ _ M A) as (y & I & Cy). cbn [fst snd] in Cy. rewrite Forall_forall in IH.
    destruct (IH _ A _ _ _ ks b Cy L) as (k' & src & H). exists k', src. assert (N : n_name y = k).
    { pose proof (create_loaded _ _ _ _ _ _ _ Cy) as Lo. now apply loaded_name in Lo. }
    rewrite <- N. now apply an_child.
Qed.
Lemma static_saved cf : (forall dir n l, saves cf dir n l -> forall ks k b src, at_names n ks (NFile k b PIgnored None src) -> ~ hidden cf k ->
    In (dir ++ n_name n :: ks, Some b) l) /\
  (forall dir ch l, saves_all cf dir ch l -> forall c ks k b src, In c ch -> at_names c ks (NFile k b PIgnored None src) -> ~ hidden cf k ->
    In (dir ++ n_name c :: ks, Some b) l).
Proof.
  apply (saves_both cf (fun dir n l _ => forall ks k b src, at_names n ks (NFile k b PIgnored None src) -> ~ hidden cf k -> In (dir ++ n_name n :: ks, Some b) l)
    (fun dir ch l _ => forall c ks k b src, In c ch -> at_names c ks (NFile k b PIgnored None src) -> ~ hidden cf k -> In (dir ++ n_name c :: ks, Some b) l)).
  - intros dir name b pc meta src H ks k b' src' A N. inversion A; subst. contradiction.
  - intros dir name stem b pc meta src H (_ & _ & X & _) P ks k b' src' A N. inversion A; subst. contradiction.
  - intros dir name stem b pc meta src H (_ & _ & X & _) P ks k b' src' A N. inversion A; subst. contradiction.
  - intros dir name b pc meta src H S P ks k b' src' A N. inversion A; subst. now left.
  - intros dir name ch src l P S IH ks k b src' A N. inversion A; subst. right. cbn [n_name].
    match goal with H : In ?x ch, H' : at_names ?x ?j _ |- _ => specialize (IH x j k b src' H H' N); replace (dir ++ name :: n_name x :: j) with ((dir ++ [name]) ++ n_name x :: j) by now rewrite <- app_assoc end. exact IH.
  - intros dir c ks k b src [].
  - intros dir c ch l l' _ IH _ IH' x ks k b src [<-|I] A N; apply in_app_iff; [left|right]; eauto.
Qed.
Lemma write_meta ser f st p d d' : save_metadata ser f st p d = (d', Ok tt) -> forall q, q <> p -> what q d' = what q d.
Proof.
  unfold save_metadata. destruct (metadata_value st) as [v| | |]; try discriminate. destruct (run_ops f _ d) as [d0 ok] eqn:R. destruct ok; [|discriminate]. intros E; injection E as ->.
  apply run_ops_cons in R. destruct R as (f' & d1 & R1 & R2). cbn in R2. injection R2 as <-. apply write_effect in R1. destruct R1 as [_ R1]. intros q N. rewrite R1. destruct (path_eq p q); [congruence|reflexivity].
Qed.
Lemma remove_temp_distinct f p d : ent_distinct d -> (forall e, f = Some (Some e) -> ent_distinct e) -> ent_distinct (remove_temp f p d).
Proof.
  intros D F. unfold remove_temp. destruct f as [junk|].
  - apply update_distinct; [exact D|]. intros e ->. now apply F.
  - unfold rmtree. destruct p as [|c p]; [exact D|]. destruct (lookup (c :: p) d) as [[|l|]|]; try exact D. now apply update_distinct.
Qed.
(** A successful build up to the post-build scripts. *)
Lemma build_saved m f c d c' d' : cli_build m f c d = (c', d', COk) ->
  exists d1 st d3 d4 out, ran (m_script m) (cx_pre c) d d1 /\ build_and_merge m c d1 = (st, Ok tt) /\ c' = set_stuart st c /\ st_output st = Some out /\
    save (fl_save f) st (output_dir c) (remove_temp (fl_temp f) (cx_dir c ++ [lit "temp"]) d1) = (d3, Ok tt) /\
    (forall q, q <> cx_dir c ++ [lit "metadata.json"] -> what q d4 = what q d3) /\ ran (m_script m) (cx_post c) d4 d'.
Proof.
  unfold cli_build. destruct (run_scripts _ (cx_pre c) d) as [d1 [e|]] eqn:R1; [discriminate|]. destruct (build_and_merge m c d1) as [st r] eqn:BM.
  destruct r as [[]| | |]; try discriminate. destruct (merged_output _ _ _ _ BM) as (out & O & _). fold (output_dir c).
  destruct (save _ st _ _) as [d3 r] eqn:S. destruct r as [[]| | |]; try discriminate.
  set (w := if cf_meta _ then _ else _). assert (W : forall d4 u, w = (d4, Ok u) -> forall q, q <> cx_dir c ++ [lit "metadata.json"] -> what q d4 = what q d3).
  { intros d4 [] E q N. subst w. destruct (cf_meta _); [now apply (write_meta _ _ _ _ _ _ E)|]. injection E as <-. reflexivity. }
  clearbody w. destruct w as [d4 r4]. destruct r4 as [u| | |]; try discriminate. destruct (run_scripts _ (cx_post c) d4) as [d5 [e|]] eqn:R2; [discriminate|].
  intros E; injection E as <- <-. apply run_scripts_ran in R1. apply run_scripts_ran in R2. exists d1, st, d3, d4, out. repeat (split; [first [eassumption|reflexivity]|]). split; [now apply (W d4 u)|exact R2].
Qed.
Lemma static_published m f c d c' d' d1 ks k b l out ch : cli_build m f c d = (c', d', COk) -> ran (m_script m) (cx_pre c) d d1 ->
  ent_distinct d1 -> (forall e, fl_temp f = Some (Some e) -> ent_distinct e) ->
  lookup (cx_dir c ++ [lit "static"]  ++ ks ++ [k]) d1 = Some (EFile b) ->
  st_output (cx_stuart c') = Some out -> n_children out = Some ch -> saves_all (st_config (cx_stuart c')) [] ch l ->
  ~ hidden (st_config (cx_stuart c')) k -> (forall b', In (ks ++ [k], Some b') l -> b' = b) ->
  output_dir c ++ ks ++ [k] <> cx_dir c ++ [lit "metadata.json"] ->
  scripts_leave (m_script m) (cx_post c) (eq (output_dir c ++ ks ++ [k])) ->
  what (output_dir c ++ ks ++ [k]) d' = KFile b.
Proof.
  intros B R D FT L O C SA H U NM SL. destruct (build_saved _ _ _ _ _ _ B) as (d1' & st & d3 & d4 & out' & R1 & BM & -> & O' & S & W & R2).
  assert (d1' = d1) by (apply run_scripts_ran in R, R1; congruence). subst d1'. cbn [set_stuart cx_stuart] in *.
  destruct (merged_output _ _ _ _ BM) as (out2 & O2 & _ & _ & _ & ST & _). assert (out2 = out) by congruence. subst out2. clear out' O' O2.
  rewrite app_assoc, lookup_app in L. destruct (lookup (cx_dir c ++ [lit "static"]) d1) as [e|] eqn:LS; [|discriminate].
  destruct (ST (lit "static") e (or_introl eq_refl) LS) as (l0 & t & -> & CF & K).
  destruct (static_node _ _ _ _ _ _ b CF L) as (k' & src & A). apply K in A. destruct A as (y & A & SN).
  destruct y as [k2 b2 pc2 meta2 src2|]; [|destruct SN]. cbn in SN. destruct SN as (-> & -> & -> & -> & ->).
  assert (k' = k) by (apply at_names_name in A; exact A). subst k'.
  assert (I : In (ks ++ [k], Some b) l).
  { destruct out as [|name chx srcx]; [discriminate|]. cbn in C. injection C as ->. inversion A as [|? ? ? cx ksx ? Ix Ax E1 E2]; subst.
    apply (proj2 (static_saved (st_config st)) [] ch l SA cx ksx k b src Ix Ax H). }
  pose proof (save_exactly _ _ _ _ _ _ _ _ O C SA (remove_temp_distinct _ _ _ D FT) S) as X.
  destruct (last_exists _ _ _ I) as [b' LF]. assert (b' = b) by (apply U; now apply last_in). subst b'. apply X in LF.
  apply run_scripts_ran in R2. pose proof (run_scripts_leave _ _ _ d4 _ SL eq_refl) as W5. rewrite R2 in W5. cbn [fst] in W5. rewrite W5, (W _ NM). exact LF.
Qed.
Lemma merged_tame m c d st : build_and_merge m c d = (st, Ok tt) -> inward_project c d ->
  exists out, st_output st = Some out /\ tame_tree (st_config st) out.
Proof. intros B I. destruct (merged_output m c d st B) as (out & O & _ & _ & _ & _ & T). exists out. split; [exact O|]. now apply T. Qed.

(** ** The output directory *)
Lemma text_eqb_spec a b : reflect (a = b) (text_eqb a b).
Proof. apply iff_reflect. symmetry. apply text_eqb_eq. Qed.
Lemma step_meant p n : ~ In c_slash n -> forall l q, walk p (n :: l) q <-> walk (step_component p n) l q.
Proof.
  intros NS l q. unfold step_component.
  destruct (text_eqb_spec n []) as [->|N1]; cbn [orb].
  { split; [|intros W; apply wa_stay; auto]. intros W. inversion W as [|? ? ? ? _ W'| | |? ? ? ? P _]; subst; [exact W'|]. now destruct P. }
  destruct (text_eqb_spec n [c_dot]) as [->|N2].
  { split; [|intros W; apply wa_stay; auto]. intros W. inversion W as [|? ? ? ? _ W'| | |? ? ? ? P _]; subst; [exact W'|]. now destruct P as (_ & P & _). }
  destruct (text_eqb_spec n [c_dot; c_dot]) as [->|N3].
  { split.
    - intros W. inversion W as [|? ? ? ? O _|? k ? ? W' E1|? ? W' E1|? ? ? ? P _]; subst.
      + destruct O; discriminate.
      + now rewrite removelast_last.
      + exact W'.
      + now destruct P as (_ & _ & P & _).
    - intros W. destruct p as [|k p] using rev_ind; [now apply wa_top|]. rewrite removelast_last in W. now apply wa_up. }
  split.
  - intros W. inversion W as [|? ? ? ? O _|? k ? ? W' E1|? ? W' E1|? ? ? ? P W']; subst; [destruct O; contradiction|contradiction|contradiction|exact W'].
  - intros W. apply wa_down; [now repeat split|exact W].
Qed.
Lemma walk_meant l : Forall (fun k => ~ In c_slash k) l -> forall p q, walk p l q <-> fold_left step_component l p = q.
Proof.
  induction 1 as [|n l N F IH]; intros p q; cbn [fold_left].
  - split; [intros W; now inversion W|intros ->; constructor].
  - rewrite step_meant by exact N. apply IH.
Qed.
Lemma slash_free k x : k <> c_slash -> starts_with [c_slash] (k :: x) = false.
Proof.
  intros N. destruct (starts_with [c_slash] (k :: x)) eqn:E; [|reflexivity]. apply starts_with_spec in E. destruct E as [r E]. now injection E as -> _.
Qed.
Lemma output_meant c q : output_dir c = q <-> meant (cx_dir c) (cx_output c) q.
Proof.
  unfold output_dir, join_path, meant. split.
  - pose proof (split_char_slashed (cx_output c)) as E. pose proof (split_char_spec c_slash (cx_output c)) as F.
    destruct (split_char c_slash (cx_output c)) as [h r]. destruct F as [F1 F2]. intros W. exists h, r. split; [exact E|]. split; [now constructor|].
    rewrite E in W. destruct h as [|k h].
    + destruct r as [|k r].
      * right. split; [auto|]. apply walk_meant; [now constructor|]. exact W.
      * left. split; [reflexivity|]. split; [discriminate|]. apply walk_meant; [exact F2|]. exact W.
    + right. split; [discriminate|]. apply walk_meant; [now constructor|].
      assert (Q : exists x, slashed (k :: h) r = k :: x) by (destruct r; cbn; eauto). destruct Q as [x Q]. rewrite Q in W.
      rewrite slash_free in W by (intros ->; apply F1; now left). exact W.
  - intros (h & r & E & F & O). inversion F as [|? ? F1 F2]; subst. rewrite E, split_slashed by assumption. destruct O as [(-> & NR & W)|(I & W)].
    + destruct r as [|k r]; [contradiction|]. apply walk_meant in W; [|exact F2]. exact W.
    + apply walk_meant in W; [|exact F]. destruct h as [|k h].
      * rewrite (I eq_refl) in *. exact W.
      * assert (Q : exists x, slashed (k :: h) r = k :: x) by (destruct r; cbn; eauto). destruct Q as [x Q]. rewrite Q.
        rewrite slash_free by (intros ->; apply F1; now left). exact W.
Qed.
