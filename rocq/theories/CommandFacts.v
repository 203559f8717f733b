(** CommandFacts.v -- which projects [stuart build] builds (C90), and what it writes about them (C93). *)

From Coq Require Import String List NArith ZArith Bool Lia.
From Verif Require Import Text Utf8 Json Base Syntax Parse Tree Interp Build Disk Cli Load Main.
From Verif Require Import SpecScope SpecTree SpecDisk SpecProject SpecSite SpecCommand SpecExact SpecLoad SpecMain SpecMeta.
From Verif Require Import Utf8Facts CliFacts LoadFacts ProgramFacts NewFacts SiteDisk ExactFacts MainFacts MetaFacts.
Import ListNotations.

Lemma scripted_exactly m c d d1 content : ran (m_script m) (cx_pre c) d d1 -> (forall x, exists y, ran (m_script m) (cx_post c) x y) ->
  lookup (cx_dir c ++ [lit "content"]) d1 = Some content ->
  plain_site (m_host m) (st_plugins (cx_stuart c)) (m_osenv m) (cx_mode c) content ->
  prepared (m_host m) (st_plugins (cx_stuart c)) (page_vars (m_osenv m) (cx_mode c)) (st_config (cx_stuart c)) (cx_dir c) (output_dir c) content d1 ->
  (snd (cli_build m no_faults c d) = COk <-> site_in_order (m_host m) (st_plugins (cx_stuart c)) (page_vars (m_osenv m) (cx_mode c)) content).
Proof.
  intros R RP LC PS (D & N1 & N2 & N3 & (statics & temps & both & P1 & P2 & S1 & S2 & AP & OV & NC & NO) & NE & PD & W & T & CM). split; intros H.
  - destruct (cli_build m no_faults c d) as [[c' d'] r] eqn:B. cbn [snd] in H. subst r. exact (project_needs_order _ _ _ _ _ _ _ _ B R LC PS).
  - destruct (project_scripted m c d d1 content statics temps both) as (d2 & _ & _ & _ & B); try assumption.
    + repeat (split; [assumption|]). apply PS.
    + destruct (RP d2) as [d3 R3]. destruct (B d3 R3) as [c' E]. now rewrite E.
Qed.
Lemma start_inv w manifest output mode d dir name d0 c said : meant (w_cwd w) manifest (dir ++ [name]) -> start w manifest output mode d = (d0, SOk c, said) ->
  exists r deps ps, manifest_says w (dir ++ [name]) d r deps /\
    loads_all (lo_js (w_loader w)) (load_from_source (w_loader w) (w_load_faults w) dir) deps d d0 ps /\ c = init r ps dir output mode d0.
Proof.
  intros M. apply join_meant in M. unfold start. cbn zeta. rewrite M, removelast_last.
  destruct (lookup (dir ++ [name]) d) as [e|] eqn:LK; [|discriminate]. destruct e as [b|l|]; try discriminate. destruct (from_utf8 b) as [t|] eqn:U; [|discriminate].
  destruct (w_toml w t) as [r deps|[[l0 c0]|] m] eqn:TM; try discriminate. destruct (load_plugins _ _ deps d) as [d2 [ps| |]] eqn:LP; try discriminate.
  intros E. injection E as <- <- _. exists r, deps, ps. split; [exists b, t; split; [unfold what; now rewrite LK|split; [now apply decoding|exact TM]]|]. split; [now apply plugins_loaded|reflexivity].
Qed.
Lemma command_inv w lv manifest output d dir name d' items : meant (w_cwd w) manifest (dir ++ [name]) -> main w lv (CmdBuild manifest output) d = (d', Exit 0, items) ->
  exists r deps d0 ps c', manifest_says w (dir ++ [name]) d r deps /\
    loads_all (lo_js (w_loader w)) (load_from_source (w_loader w) (w_load_faults w) dir) deps d d0 ps /\
    cli_build (machine_of w (dir ++ [name]) output (lit "production")) (w_build_faults w 0) (init r ps dir output (lit "production") d0) d0 = (c', d', COk).
Proof.
  intros M E. assert (exists d0 c said, start w manifest output (lit "production") d = (d0, SOk c, said)) as (d0 & c & said & S).
  { unfold main, perform, build_command in E. cbn zeta in E. destruct (start w manifest output (lit "production") d) as [[d0 s] said]. destruct s as [c|e|]; [now exists d0, c, said| |]; discriminate. }
  destruct (start_inv _ _ _ _ _ _ _ _ _ _ M S) as (r & deps & ps & MS & L & ->).
  destruct (main_build_inv _ _ _ _ _ _ _ _ _ _ _ _ _ M MS L E) as [c' B]. exists r, deps, d0, ps, c'. now repeat split.
Qed.
Lemma command_exactly w lv manifest output d dir name out : untroubled w -> meant (w_cwd w) manifest (dir ++ [name]) -> meant dir output out ->
  (forall r deps d0 ps, manifest_says w (dir ++ [name]) d r deps ->
     loads_all (lo_js (w_loader w)) (load_from_source (w_loader w) (w_load_faults w) dir) deps d d0 ps ->
     what (dir ++ [lit "scripts"]) d0 = KNone /\ forall content, lookup (dir ++ [lit "content"]) d0 = Some content ->
       plain_site (w_host w) ps (w_osenv w) (lit "production") content /\
       prepared (w_host w) ps (page_vars (w_osenv w) (lit "production")) (to_config r) dir out content d0) ->
  ((exists d' items, main w lv (CmdBuild manifest output) d = (d', Exit 0, items)) <->
   exists r deps d0 ps content, manifest_says w (dir ++ [name]) d r deps /\
     loads_all (lo_js (w_loader w)) (load_from_source (w_loader w) (w_load_faults w) dir) deps d d0 ps /\
     lookup (dir ++ [lit "content"]) d0 = Some content /\
     site_in_order (w_host w) ps (page_vars (w_osenv w) (lit "production")) content).
Proof.
  intros U M MO PR. apply join_meant in MO. split.
  - intros (d' & items & E). destruct (command_inv _ _ _ _ _ _ _ _ _ M E) as (r & deps & d0 & ps & c' & MS & L & B).
    destruct (build_saved _ _ _ _ _ _ B) as (d1 & st & _ & _ & _ & R1 & BM & _).
    assert (exists content, lookup (dir ++ [lit "content"]) d1 = Some content) as [content LC].
    { unfold build_and_merge in BM. destruct (build _ _ _ _ _) as [st1 x] eqn:Bd. destruct x; try discriminate. unfold build, source_at in Bd. cbn [sd_ent] in Bd. cbn [cx_dir init] in Bd.
      destruct (lookup (dir ++ [lit "content"]) d1) as [e|]; [now exists e|]. discriminate Bd. }
    destruct (PR _ _ _ _ MS L) as (SC & PC). apply what_none in SC.
    assert (d1 = d0) by (unfold init in R1; cbn [cx_pre] in R1; rewrite SC in R1; inversion R1; reflexivity). subst d1.
    destruct (PC _ LC) as (PS & _). exists r, deps, d0, ps, content. repeat (split; [assumption|]).
    exact (project_needs_order _ _ _ _ _ _ _ _ B R1 LC PS).
  - intros (r & deps & d0 & ps & content & MS & L & LC & SO). destruct (PR _ _ _ _ MS L) as (SC & PC). apply what_none in SC. destruct (PC _ LC) as (PS & PP).
    set (m := machine_of w (dir ++ [name]) output (lit "production")). set (c := init r ps dir output (lit "production") d0).
    assert (PRE : cx_pre c = []) by (unfold c, init; cbn [cx_pre]; now rewrite SC).
    assert (POST : cx_post c = []) by (unfold c, init; cbn [cx_post]; now rewrite SC).
    destruct (cli_build m no_faults c d0) as [[c' d'] x] eqn:B.
    assert (x = COk).
    { pose proof (scripted_exactly m c d0 d0 content) as X. rewrite B in X. cbn [snd] in X. apply X; [rewrite PRE; constructor|rewrite POST; intros y; exists y; constructor|exact LC|exact PS| |exact SO].
      replace (output_dir c) with out by (symmetry; exact MO). exact PP. }
    subst x. rewrite <- (proj1 U 0) in B. pose proof (main_build w lv manifest output d dir name r deps d0 ps M MS L _ _ _ B) as X. cbn beta iota in X. destruct X as [items X]. now exists d', items.
Qed.
Lemma command_metadata w lv manifest output d dir name d' items : meant (w_cwd w) manifest (dir ++ [name]) ->
  main w lv (CmdBuild manifest output) d = (d', Exit 0, items) ->
  exists r deps d0 ps, manifest_says w (dir ++ [name]) d r deps /\
    loads_all (lo_js (w_loader w)) (load_from_source (w_loader w) (w_load_faults w) dir) deps d d0 ps /\
    (cf_meta (to_config r) = true -> flat_map pl_parsers ps = [] -> what (dir ++ [lit "scripts"]) d0 = KNone ->
     exists content others vs, lookup (dir ++ [lit "content"]) d0 = Some content /\
       (forall e, In e others <-> lookup (dir ++ [lit "static"]) d0 = Some e \/ lookup (dir ++ [lit "temp"]) d0 = Some e) /\
       tells (w_host w) content others vs /\
       what (dir ++ [lit "metadata.json"]) d' = KFile (w_ser w (VObj
         [(lit "name", VStr (rc_name r)); (lit "author", match rc_author r with Some a => VStr a | None => VNull end); (lit "data", VArr vs)]))).
Proof.
  intros M E. destruct (command_inv _ _ _ _ _ _ _ _ _ M E) as (r & deps & d0 & ps & c' & MS & L & B). exists r, deps, d0, ps. split; [exact MS|]. split; [exact L|].
  intros CM NP SC. apply what_none in SC. destruct (metadata_tells _ _ _ _ _ _ B CM NP) as (d1 & d4 & content & others & vs & R1 & R2 & LC & OT & T & W).
  assert (d1 = d0) by (unfold init in R1; cbn [cx_pre] in R1; rewrite SC in R1; inversion R1; reflexivity). subst d1.
  assert (d' = d4) by (unfold init in R2; cbn [cx_post] in R2; rewrite SC in R2; inversion R2; reflexivity). subst d4.
  exists content, others, vs. split; [exact LC|]. split; [exact OT|]. split; [exact T|]. exact W.
Qed.
