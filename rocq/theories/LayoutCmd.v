(** LayoutCmd.v -- whole commands on projects whose tags are written in different ways (C103). *)

From Coq Require Import String List NArith ZArith Bool Lia.
From Verif Require Import Text TextFacts Utf8 Json Base Syntax Parse Tree Interp Build Disk Cli Load Report Main.
From Verif Require Import SpecUtf8 SpecScope SpecTree SpecSite SpecDisk SpecAlike SpecProject SpecMain SpecSays SpecLayout.
From Verif Require Import TreeFacts DiskFacts MainFacts SaysFacts AlterFacts LayoutFacts.
Import ListNotations.

Lemma layout_sibs h content e : forall name e' k, above content (k ++ [name]) -> sources_layout h name e e' -> sibs (template_at content) (k ++ [name]) e e'.
Proof.
  induction e as [b| |l IH] using ent_ind2; intros name e' k A S; inversion S as [? ? b' F|? ? l' F|]; subst; [|constructor|].
  - destruct F as [b|b b' t t' (s & -> & _) _ _ _]; [constructor|]. apply sbs_data. split; [exact A|]. now exists k, s.
  - constructor. clear S. induction F as [|x x' l l' [N Q] F IHl]; constructor; inversion IH; subst; auto. split; auto. apply H1; auto. destruct A as (z & Z). exists (z ++ [fst x]). now rewrite Z, <- !app_assoc.
Qed.
Lemma layout_outp P o : forall o', output_layout o o' -> outp P o o'.
Proof.
  induction o as [name b pc meta src|name ch src IH] using node_ind2; intros o' L; inversion L as [? ? b' ? ? ? X|? ? ch' ? H]; subst; constructor.
  - destruct X; auto.
  - now left.
  - clear L. induction H; constructor; inversion IH; subst; auto.
Qed.
Lemma layout_half w lv manifest output dir name r deps ps d d' e e' : meant (w_cwd w) manifest (dir ++ [name]) -> manifest_says w (dir ++ [name]) d r deps -> name <> lit "content" ->
  loads_all (lo_js (w_loader w)) (load_from_source (w_loader w) (w_load_faults w) dir) deps d d ps -> loads_all (lo_js (w_loader w)) (load_from_source (w_loader w) (w_load_faults w) dir) deps d' d' ps ->
  what (dir ++ [lit "scripts"]) d = KNone -> edited (dir ++ [lit "content"]) e e' d d' -> unplaced ps -> sources_layout (w_host w) (lit "content") e e' ->
  forall d1 items, main w lv (CmdBuild manifest output) d = (d1, Exit 0, items) -> exists d1' items', main w lv (CmdBuild manifest output) d' = (d1', Exit 0, items') /\
    forall q, what q d1' = what q d1 \/ (template_at (dir ++ [lit "content"]) q /\ exists b b', what q d1 = KFile b /\ what q d1' = KFile b').
Proof.
  intros M MS NC L L' NS Ed U S d1 items X. pose proof (main_built w lv manifest output dir name r deps ps d d' e e' M MS L NS Ed d1 items X) as B.
  pose proof (proj1 (layout_iff (w_host w) (w_osenv w) (lit "production") (dir ++ [lit "content"]) (lit "content") e e' (stuart_new (to_config r) ps) U S) B) as B'.
  destruct (main_akin (template_at (dir ++ [lit "content"])) w lv manifest output dir name r deps ps d d' e e' M MS NC L L' NS Ed) as (d2 & d2' & x & x' & it & it' & Y & Y' & (-> & _) & Z).
  - apply (layout_sibs (w_host w)); auto. exists []. now rewrite app_nil_r.
  - split; [now rewrite !kept_settings|]. destruct (layout_build (w_host w) (w_osenv w) (lit "production") (dir ++ [lit "content"]) (lit "content") e e' (stuart_new (to_config r) ps) U S (built_known _ _ _ _ _ _ _ B)) as [_ Q]. specialize (Q B).
    destruct (st_output (fst (build _ _ _ (SourceDir _ _ (Some e)) _))), (st_output (fst (build _ _ _ (SourceDir _ _ (Some e')) _))); cbn in Q |- *; try contradiction; auto. now apply layout_outp.
  - congruence.
  - rewrite X in Y. injection Y as <- <- <-. exists d2', it'. split; [exact Y'|]. now apply sibs_what.
Qed.
Lemma layout_command w lv manifest output dir name r deps ps d d' e e' : meant (w_cwd w) manifest (dir ++ [name]) -> manifest_says w (dir ++ [name]) d r deps -> name <> lit "content" ->
  loads_all (lo_js (w_loader w)) (load_from_source (w_loader w) (w_load_faults w) dir) deps d d ps -> loads_all (lo_js (w_loader w)) (load_from_source (w_loader w) (w_load_faults w) dir) deps d' d' ps ->
  what (dir ++ [lit "scripts"]) d = KNone -> edited (dir ++ [lit "content"]) e e' d d' -> unplaced ps -> sources_layout (w_host w) (lit "content") e e' ->
  ((exists d1 items, main w lv (CmdBuild manifest output) d = (d1, Exit 0, items)) <-> (exists d1' items', main w lv (CmdBuild manifest output) d' = (d1', Exit 0, items'))) /\
  forall d1 items d1' items', main w lv (CmdBuild manifest output) d = (d1, Exit 0, items) -> main w lv (CmdBuild manifest output) d' = (d1', Exit 0, items') ->
    forall q, what q d1' = what q d1 \/ (template_at (dir ++ [lit "content"]) q /\ exists b b', what q d1 = KFile b /\ what q d1' = KFile b').
Proof.
  intros M MS NC L L' NS Ed U S. split.
  - split; intros (d1 & items & X).
    + destruct (layout_half w lv manifest output dir name r deps ps d d' e e' M MS NC L L' NS Ed U S d1 items X) as (d1' & it' & Y & _). eauto.
    + destruct (layout_half w lv manifest output dir name r deps ps d' d e' e M (says' w dir name r deps d d' e e' MS NC Ed) NC L' L (scripts' dir d d' e e' NS Ed) (edited_sym dir d d' e e' Ed) U (sources_sym _ _ _ _ S) d1 items X) as (d1' & it' & Y & _). eauto.
  - intros d1 items d1' items' X X'. destruct (layout_half w lv manifest output dir name r deps ps d d' e e' M MS NC L L' NS Ed U S d1 items X) as (d2 & it & Y & Z). rewrite X' in Y. injection Y as <- <-. exact Z.
Qed.
