(** RenameCmd.v -- whole commands on projects whose variables have other names (C89). *)

From Coq Require Import String List NArith ZArith Bool Lia.
From Verif Require Import Text TextFacts Utf8 Json Base Syntax Parse Tree Interp Build Disk Cli Load Report Main.
From Verif Require Import SpecUtf8 SpecScope SpecTree SpecSite SpecDisk SpecAlike SpecProject SpecMain SpecSays SpecLayout SpecRename.
From Verif Require Import TreeFacts DiskFacts MainFacts SaysFacts AlterFacts RenameFacts.
Import ListNotations.

Lemma renamed_sibs h ps content e : forall name e' k, above content (k ++ [name]) -> renamed h ps name e e' -> sibs (SpecLayout.template_at content) (k ++ [name]) e e'.
Proof.
  induction e as [b| |l IH] using ent_ind2; intros name e' k A S; inversion S as [|? ? b' (s & -> & _) _ F|? ? l' F]; subst; try apply sibs_refl.
  - apply sbs_data. split; [exact A|]. now exists k, s.
  - constructor. clear S. induction F as [|x e0 e0' l l' Q F IHl]; constructor; inversion IH; subst; auto. split; [reflexivity|]. cbn [fst snd]. apply H1; auto. destruct A as (z & Z). exists (z ++ [x]). now rewrite Z, <- !app_assoc.
Qed.
Lemma renamed_outp P o : forall o', orel o o' -> outp P o o'.
Proof.
  induction o as [name b pc meta src|name ch src IH] using node_ind2; intros o' L; inversion L as [? ? b' ? ? ? X|? ? ch' ? H]; subst; constructor.
  - destruct X as [X|[_ X]]; auto.
  - now left.
  - clear L. induction H; constructor; inversion IH; subst; auto.
Qed.
Lemma rename_half w lv manifest output dir name r deps ps d d' e e' : meant (w_cwd w) manifest (dir ++ [name]) -> manifest_says w (dir ++ [name]) d r deps -> name <> lit "content" ->
  loads_all (lo_js (w_loader w)) (load_from_source (w_loader w) (w_load_faults w) dir) deps d d ps -> loads_all (lo_js (w_loader w)) (load_from_source (w_loader w) (w_load_faults w) dir) deps d' d' ps ->
  what (dir ++ [lit "scripts"]) d = KNone -> edited (dir ++ [lit "content"]) e e' d d' -> ent_distinct e -> renamed (w_host w) ps (lit "content") e e' ->
  forall d1 items, main w lv (CmdBuild manifest output) d = (d1, Exit 0, items) -> exists d1' items', main w lv (CmdBuild manifest output) d' = (d1', Exit 0, items') /\
    forall q, what q d1' = what q d1 \/ (SpecLayout.template_at (dir ++ [lit "content"]) q /\ exists b b', what q d1 = KFile b /\ what q d1' = KFile b').
Proof.
  intros M MS NC L L' NS Ed D S d1 items X. pose proof (main_built w lv manifest output dir name r deps ps d d' e e' M MS L NS Ed d1 items X) as B.
  assert (O : exists out, st_output (fst (build (w_host w) (w_osenv w) (lit "production") (SourceDir (dir ++ [lit "content"]) (lit "content") (Some e)) (stuart_new (to_config r) ps))) = Some out).
  { revert B. unfold build. destruct (node_new _ _ _ _ _ _); try discriminate. destruct (preprocess _ _); try discriminate. destruct (build_tree _ _ _ _) as [[? out]| | |]; try discriminate. intros _. now exists out. }
  destruct O as (out & O). destruct (rename_site (w_host w) (w_osenv w) (lit "production") (dir ++ [lit "content"]) (lit "content") e e' (stuart_new (to_config r) ps) out D S B O) as (B' & out' & O' & Oo).
  destruct (main_akin (SpecLayout.template_at (dir ++ [lit "content"])) w lv manifest output dir name r deps ps d d' e e' M MS NC L L' NS Ed) as (d2 & d2' & x & x' & it & it' & Y & Y' & (-> & _) & Z).
  - apply (renamed_sibs (w_host w) ps); auto. exists []. now rewrite app_nil_r.
  - split; [now rewrite !kept_settings|]. rewrite O, O'. cbn. now apply renamed_outp.
  - congruence.
  - rewrite X in Y. injection Y as <- <- <-. exists d2', it'. split; [exact Y'|]. now apply sibs_what.
Qed.
Lemma rename_command w lv manifest output dir name r deps ps d d' e e' : meant (w_cwd w) manifest (dir ++ [name]) -> manifest_says w (dir ++ [name]) d r deps -> name <> lit "content" ->
  loads_all (lo_js (w_loader w)) (load_from_source (w_loader w) (w_load_faults w) dir) deps d d ps -> loads_all (lo_js (w_loader w)) (load_from_source (w_loader w) (w_load_faults w) dir) deps d' d' ps ->
  what (dir ++ [lit "scripts"]) d = KNone -> edited (dir ++ [lit "content"]) e e' d d' -> ent_distinct e -> renamed (w_host w) ps (lit "content") e e' ->
  ((exists d1 items, main w lv (CmdBuild manifest output) d = (d1, Exit 0, items)) <-> (exists d1' items', main w lv (CmdBuild manifest output) d' = (d1', Exit 0, items'))) /\
  forall d1 items d1' items', main w lv (CmdBuild manifest output) d = (d1, Exit 0, items) -> main w lv (CmdBuild manifest output) d' = (d1', Exit 0, items') ->
    forall q, what q d1' = what q d1 \/ (SpecLayout.template_at (dir ++ [lit "content"]) q /\ exists b b', what q d1 = KFile b /\ what q d1' = KFile b').
Proof.
  intros M MS NC L L' NS Ed D S. split.
  - split; intros (d1 & items & X).
    + destruct (rename_half w lv manifest output dir name r deps ps d d' e e' M MS NC L L' NS Ed D S d1 items X) as (d1' & it' & Y & _). eauto.
    + destruct (rename_half w lv manifest output dir name r deps ps d' d e' e M (says' w dir name r deps d d' e e' MS NC Ed) NC L' L (scripts' dir d d' e e' NS Ed) (edited_sym dir d d' e e' Ed) (renamed_distinct _ _ _ _ _ S D) (renamed_back _ _ _ _ _ S) d1 items X) as (d1' & it' & Y & _). eauto.
  - intros d1 items d1' items' X X'. destruct (rename_half w lv manifest output dir name r deps ps d d' e e' M MS NC L L' NS Ed D S d1 items X) as (d2 & it & Y & Z). rewrite X' in Y. injection Y as <- <-. exact Z.
Qed.
