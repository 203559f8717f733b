(** RewriteFacts.v -- sites written differently, built from the command line (C91, C101, C107, C108, C109). *)

From Coq Require Import String List NArith ZArith Bool Lia.
From Verif Require JsFacts.
From Verif Require Import Text Utf8 Json Base Syntax Parse Tree Interp Build Disk Cli Load Dev New Report Main.
From Verif Require Import SpecScope SpecRender SpecTemplate SpecBlocks SpecTree SpecDisk SpecProject SpecChars SpecSite SpecNew SpecUtf8 SpecMain SpecExact SpecSwap SpecSections SpecShare SpecRelabel SpecUnused SpecRewrite.
From Verif Require Import SiteDisk MainFacts SwapFacts SwapLaws SectionFacts ShareFacts RelabelFacts UnusedFacts.
Import ListNotations.

Lemma ready_built w lv manifest output dir name out r ps d d' content content' statics :
  command_ready w manifest output dir name out r ps d content statics -> command_ready w manifest output dir name out r ps d' content' statics ->
  site_ready (w_host w) ps (page_vars (w_osenv w) (lit "production")) (to_config r) content statics ->
  site_ready (w_host w) ps (page_vars (w_osenv w) (lit "production")) (to_config r) content' statics ->
  (forall q o, SpecSite.file_at (w_host w) ps (page_vars (w_osenv w) (lit "production")) content (to_config r) statics q o <->
     SpecSite.file_at (w_host w) ps (page_vars (w_osenv w) (lit "production")) content' (to_config r) statics q o) ->
  built_alike w lv manifest output out d d'.
Proof.
  intros (U & M & Mo & No & Cm & Fp & So & deps & d0 & Ms & Lo & Sc & Lc & Ls & Te & Di & Ni & Np & Pa & Wo) (_ & _ & _ & _ & _ & _ & _ & deps' & d0' & Ms' & Lo' & Sc' & Lc' & Ls' & Te' & Di' & Ni' & Np' & Pa' & Wo')
    (Or & Co & Ov) (Or' & Co' & Ov') F.
  destruct (main_project w lv manifest output d dir name r deps d0 ps content statics out) as (d1 & i1 & B1 & F1); auto.
  destruct (main_project w lv manifest output d' dir name r deps' d0' ps content' statics out) as (d2 & i2 & B2 & F2); auto.
  exists d1, i1, d2, i2. split; [exact B1|]. split; [exact B2|]. intros q o. rewrite F1, F2. apply F.
Qed.
Lemma ready_distinct w manifest output dir name out r ps d content statics : command_ready w manifest output dir name out r ps d content statics -> ent_distinct content.
Proof. intros (_ & _ & _ & _ & _ & _ & _ & deps & d0 & _ & _ & _ & L & _ & _ & D & _). eapply SiteDisk.lookup_distinct; eassumption. Qed.

Section Ready.
  Variable h : host.
  Variable ps : list plugin.
  Variable vars : list (text * value).
  Variable cf : config.
  Variable content content' statics : ent.
  Hypothesis R : site_ready h ps vars cf content statics.
  Local Notation done := (site_ready h ps vars cf content' statics /\
    forall q o, SpecSite.file_at h ps vars content cf statics q o <-> SpecSite.file_at h ps vars content' cf statics q o).
  Lemma swapped_ready : swapped_site h ps vars content content' -> done.
  Proof.
    intros S. destruct R as (Or & [C1 C2] & [Ov1 Ov2]). split; [|intros q o; apply (file_same _ _ _ _ _ S)]. split; [now apply (order_same _ _ _ _ _ S)|]. split; split.
    - intros ks name x o A Pu. destruct (published_back _ _ _ _ _ S _ _ _ Pu) as [o' Pu']. exact (C1 _ _ _ _ A Pu').
    - intros ks b l A A'. destruct (dir_swapped _ _ _ _ _ _ _ _ _ (swapped_sym _ _ _ _ _ _ _ _ _ S) A') as (l' & X & _). exact (C2 _ _ _ A X).
    - intros q o o' A A'. apply (file_same _ _ _ _ _ S) in A, A'. exact (Ov1 _ _ _ A A').
    - intros q o A Fo. apply (file_same _ _ _ _ _ S) in A. apply (folder_same _ _ _ _ _ _ _ S) in Fo. exact (Ov2 _ _ A Fo).
  Qed.
  Lemma moved_ready : plugins_give unmoved ps -> rearranged h ps [] content content' -> done.
  Proof.
    intros G S. assert (S' := rearranged_sym _ _ _ _ _ S). destruct R as (Or & [C1 C2] & [Ov1 Ov2]). split; [|intros q o; apply (files_both _ _ G _ _ _ S)]. split; [now apply (order_both _ _ G _ _ _ S)|]. split; split.
    - intros ks name x o A Pu. destruct (published_too _ _ G _ _ _ S' _ _ _ Pu) as [o' Pu']. exact (C1 _ _ _ _ A Pu').
    - intros ks b l A A'. destruct (dir_moved _ _ _ _ _ _ S' A') as (l' & X & _). exact (C2 _ _ _ A X).
    - intros q o o' A A'. apply (files_both _ _ G _ _ _ S) in A, A'. exact (Ov1 _ _ _ A A').
    - intros q o A Fo. apply (files_both _ _ G _ _ _ S) in A. apply (folders_back _ _ G _ _ _ S) in Fo. exact (Ov2 _ _ A Fo).
  Qed.
  Lemma relabelled_ready rho rho' : undone rho rho' -> relabelled h ps rho [] content content' -> done.
  Proof.
    intros U S. destruct R as (Or & [C1 C2] & [Ov1 Ov2]). split; [|intros q o; exact (file_relabelled_same _ _ _ _ _ U _ _ S _ _ _ _)]. split; [exact (proj1 (order_relabelled _ _ _ _ _ U _ _ S) Or)|]. split; split.
    - intros ks name x o A Pu. destruct (published_undone _ _ _ _ _ U _ _ S _ _ _ Pu) as [o' Pu']. exact (C1 _ _ _ _ A Pu').
    - intros ks b l A A'. destruct (dir_there _ _ _ _ _ _ _ (relabelled_sym _ _ _ _ U _ _ _ S) A') as (l' & X & _). exact (C2 _ _ _ A X).
    - intros q o o' A A'. apply (proj2 (file_relabelled_same _ _ _ _ _ U _ _ S _ _ _ _)) in A, A'. exact (Ov1 _ _ _ A A').
    - intros q o A Fo. apply (proj2 (file_relabelled_same _ _ _ _ _ U _ _ S _ _ _ _)) in A. apply (folder_relabelled _ _ _ _ _ U _ _ S) in Fo. exact (Ov2 _ _ A Fo).
  Qed.
  Lemma thinned_ready : plugins_give unmoved ps -> ent_distinct content' -> thinned h ps (asked_in h ps content) [] content content' -> done.
  Proof.
    intros G D S. destruct R as (Or & Co & Ov). pose (K := fun n (X : asked_in h ps content n) => X). split; [|intros q o; apply (files_thin _ _ G _ _ _ _ S K D Or)].
    split; [now apply (order_thin _ _ G _ _ _ _ S K)|]. split; [now apply (conflict_thin _ _ G _ _ _ _ S K D Or)|now apply (overlap_thin _ _ G _ _ _ _ S K D Or)].
  Qed.
End Ready.

Section Command.
  Variable w : world.
  Variable lv : level.
  Variable manifest output : text.
  Variable dir : path.
  Variable name : text.
  Variable out : path.
  Variable r : raw_config.
  Variable ps : list plugin.
  Variable d d' content content' statics : ent.
  Local Notation h := (w_host w).
  Local Notation vars := (page_vars (w_osenv w) (lit "production")).
  Hypothesis C : command_ready w manifest output dir name out r ps d content statics.
  Hypothesis C' : command_ready w manifest output dir name out r ps d' content' statics.
  Hypothesis S : site_ready h ps vars (to_config r) content statics.
  Lemma swapped_command : swapped_site h ps vars content content' -> built_alike w lv manifest output out d d'.
  Proof. intros X. destruct (swapped_ready _ _ _ _ _ _ _ S X) as [S' F]. exact (ready_built _ _ _ _ _ _ _ _ _ _ _ _ _ _ C C' S S' F). Qed.
  Lemma moved_command : plugins_give unmoved ps -> rearranged h ps [] content content' -> built_alike w lv manifest output out d d'.
  Proof. intros G X. destruct (moved_ready _ _ _ _ _ _ _ S G X) as [S' F]. exact (ready_built _ _ _ _ _ _ _ _ _ _ _ _ _ _ C C' S S' F). Qed.
  Lemma imported_command : imported h ps vars content [] content content' -> built_alike w lv manifest output out d d'.
  Proof. intros X. apply swapped_command. apply imported_site; [exact (ready_distinct _ _ _ _ _ _ _ _ _ _ _ C)|exact X]. Qed.
  Lemma relabelled_command rho rho' : undone rho rho' -> relabelled h ps rho [] content content' -> built_alike w lv manifest output out d d'.
  Proof. intros U X. destruct (relabelled_ready _ _ _ _ _ _ _ S _ _ U X) as [S' F]. exact (ready_built _ _ _ _ _ _ _ _ _ _ _ _ _ _ C C' S S' F). Qed.
  Lemma thinned_command : plugins_give unmoved ps -> thinned h ps (asked_in h ps content) [] content content' -> built_alike w lv manifest output out d d'.
  Proof. intros G X. destruct (thinned_ready _ _ _ _ _ _ _ S G (ready_distinct _ _ _ _ _ _ _ _ _ _ _ C') X) as [S' F]. exact (ready_built _ _ _ _ _ _ _ _ _ _ _ _ _ _ C C' S S' F). Qed.
End Command.
