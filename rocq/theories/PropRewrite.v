(** PropRewrite.v -- properties C91, C101, C107, C108 and C109 for whole runs of stuart build. *)

From Coq Require Import String List NArith ZArith Bool.
From Verif Require Import Text Utf8 Json Base Syntax Parse Tree Interp Build Disk Cli Load Dev New Report Main.
From Verif Require Import SpecScope SpecUtf8 SpecRender SpecTemplate SpecBlocks SpecTree SpecDisk SpecProject SpecChars SpecSite SpecNew SpecMain SpecExact SpecSwap SpecSections SpecShare SpecRelabel SpecUnused SpecRewrite.
From Verif Require NewFacts.
From Verif Require Import MainFacts GrammarFacts SwapLaws PropSite PropExact PropSwap PropSections PropShare PropRelabel PropUnused RewriteFacts.
Import ListNotations.

(** Blocks that print the same. *)
Theorem C91_command : forall w lv manifest output dir name out r ps d d' content content' statics,
  command_ready w manifest output dir name out r ps d content statics -> command_ready w manifest output dir name out r ps d' content' statics ->
  site_ready (w_host w) ps (page_vars (w_osenv w) (lit "production")) (to_config r) content statics ->
  swapped_site (w_host w) ps (page_vars (w_osenv w) (lit "production")) content content' ->
  built_alike w lv manifest output out d d'.
Proof. intros. eapply swapped_command; eassumption. Qed.
Print Assumptions C91_command.
(** Sections in another order, with other text around them. *)
Theorem C101_command : forall w lv manifest output dir name out r ps d d' content content' statics,
  command_ready w manifest output dir name out r ps d content statics -> command_ready w manifest output dir name out r ps d' content' statics ->
  site_ready (w_host w) ps (page_vars (w_osenv w) (lit "production")) (to_config r) content statics ->
  plugins_give unmoved ps -> rearranged (w_host w) ps [] content content' ->
  built_alike w lv manifest output out d d'.
Proof. intros. eapply moved_command; eassumption. Qed.
Print Assumptions C101_command.
(** Data files imported once and looped over by variable. *)
Theorem C107_command : forall w lv manifest output dir name out r ps d d' content content' statics,
  command_ready w manifest output dir name out r ps d content statics -> command_ready w manifest output dir name out r ps d' content' statics ->
  site_ready (w_host w) ps (page_vars (w_osenv w) (lit "production")) (to_config r) content statics ->
  imported (w_host w) ps (page_vars (w_osenv w) (lit "production")) content [] content content' ->
  built_alike w lv manifest output out d d'.
Proof. intros. eapply imported_command; eassumption. Qed.
Print Assumptions C107_command.
(** Sections with other names. *)
Theorem C108_command : forall w lv manifest output dir name out r ps d d' content content' statics rho rho',
  command_ready w manifest output dir name out r ps d content statics -> command_ready w manifest output dir name out r ps d' content' statics ->
  site_ready (w_host w) ps (page_vars (w_osenv w) (lit "production")) (to_config r) content statics ->
  undone rho rho' -> relabelled (w_host w) ps rho [] content content' ->
  built_alike w lv manifest output out d d'.
Proof. intros. eapply relabelled_command; eassumption. Qed.
Print Assumptions C108_command.
(** Sections left out. *)
Theorem C109_command : forall w lv manifest output dir name out r ps d d' content content' statics,
  command_ready w manifest output dir name out r ps d content statics -> command_ready w manifest output dir name out r ps d' content' statics ->
  site_ready (w_host w) ps (page_vars (w_osenv w) (lit "production")) (to_config r) content statics ->
  plugins_give unmoved ps -> thinned (w_host w) ps (asked_in (w_host w) ps content) [] content content' ->
  built_alike w lv manifest output out d d'.
Proof. intros. eapply thinned_command; eassumption. Qed.
Print Assumptions C109_command.

(** The projects of the examples of these properties, built from the command line. *)
Example C91_raw : raw_config := RawConfig (lit "n") None None.
Example C91_world (h : host) : world := World h (fun _ => []) [] (fun _ _ d => (d, ScriptOk)) (fun t => match t with [] => TomlOk C91_raw [] | _ => TomlErr None [] end)
  no_loader (fun _ _ => None) (fun _ => no_faults) (fun _ => None) (EDir []) NewFacts.no_user None None [].
Example C101_more : ent := C109_more "bye".
Example C101_disk : ent := EDir [(lit "p", EDir [(lit "stuart.toml", EFile []); (lit "content", C101_more); (lit "static", C62_statics); (lit "dist", EDir [(lit "old", EFile [])])])].
Example C101_said : rearranged C61_host [] [] C61_content C101_more.
Proof.
  apply ra_dir. apply Forall2_cons; [split; [reflexivity|]|apply Forall2_cons; [split; [reflexivity|]|apply Forall2_cons; [split; [reflexivity|]|apply Forall2_cons; [split; [reflexivity|]|apply Forall2_nil]]]].
  - apply ra_file; [exists (lit "list"); repeat split; [discriminate|vm_compute; intuition discriminate]|discriminate|].
    destruct (html_written C61_host [] (enc (lit C61_page)) [C109_list]) as (t & U & W); [vm_compute; reflexivity|].
    destruct (html_written C61_host [] (enc (lit (C61_page ++ "bye"))) [C109_list; BText (lit "bye")]) as (t' & U' & W'); [vm_compute; reflexivity|].
    exists t, t', [C109_list], [C109_list; BText (lit "bye")]. repeat (split; [assumption|]).
    apply (ro_app [C109_list] [C109_list] [] [_]); [apply ro_same|]. now apply ro_sym, C101_text.
  - apply ra_same.
  - apply ra_dir. apply Forall2_cons; [split; [reflexivity|]|apply Forall2_cons; [split; [reflexivity|]|apply Forall2_nil]]; apply ra_same.
  - apply ra_same.
Qed.
Example C91_all d content :
  In (d, content) [(C62_disk, C61_content); (C91_disk, C91_content); (C101_disk, C101_more); (C108_disk, C108_content); (C109_disk, C109_more C109_extra)] ->
  command_ready (C91_world C61_host) (lit "p/stuart.toml") (lit "dist") [lit "p"] (lit "stuart.toml") [lit "p"; lit "dist"] C91_raw [] d content C62_statics.
Proof.
  intros I. split; [repeat split; reflexivity|]. split; [now apply join_meant|]. split; [now apply join_meant|]. split; [discriminate|]. split; [reflexivity|]. split; [reflexivity|].
  split; [split; [eexists; reflexivity|]; intros ks A; apply C62_static_entries in A; intuition discriminate|].
  exists [], d. destruct I as [I|[I|[I|[I|[I|[]]]]]]; injection I as <- <-; (split; [exists [], []; repeat split; constructor|]; split; [constructor|]; split; [reflexivity|]; split; [reflexivity|]; split; [now left|];
    split; [reflexivity|]; split; [repeat first [apply ed_file|apply ed_dir|constructor]; vm_compute; intuition discriminate|];
    split; [intros e L; vm_compute in L; injection L as <-; repeat first [constructor|discriminate|now vm_compute; intuition discriminate]|];
    split; [intros e L; vm_compute in L; injection L as <-; repeat first [constructor|discriminate|now vm_compute; intuition discriminate]|]; split; [reflexivity|now right]).
Qed.
Example C91_site_ready : site_ready C61_host [] (page_vars [] (lit "production")) (to_config C91_raw) C61_content C62_statics.
Proof. split; [exact C62_in_order|]. split; [exact C62_no_conflict|exact (C62_no_overlap false)]. Qed.
Example C109_site_ready : site_ready C61_host [] (page_vars [] (lit "production")) (to_config C91_raw) (C109_more C109_extra) C62_statics.
Proof.
  assert (G : plugins_give unmoved []) by intros pl f raw g [].
  split; [exact C109_in_order|]. split.
  - apply (UnusedFacts.conflict_thin C61_host [] G (page_vars [] (lit "production")) _ _ _ C109_thinned (fun n X => X) C109_distinct C109_in_order). exact C62_no_conflict.
  - apply (UnusedFacts.overlap_thin C61_host [] G (page_vars [] (lit "production")) _ _ _ C109_thinned (fun n X => X) C109_distinct C109_in_order). exact (C62_no_overlap false).
Qed.
Example C91_command_case : built_alike (C91_world C61_host) Normal (lit "p/stuart.toml") (lit "dist") [lit "p"; lit "dist"] C62_disk C91_disk.
Proof. refine (C91_command _ _ _ _ _ _ _ _ _ _ _ _ _ _ (C91_all _ C61_content _) (C91_all _ C91_content _) C91_site_ready (C91_swapped _)); cbn [In]; tauto. Qed.
Example C101_command_case : built_alike (C91_world C61_host) Normal (lit "p/stuart.toml") (lit "dist") [lit "p"; lit "dist"] C62_disk C101_disk.
Proof. refine (C101_command _ _ _ _ _ _ _ _ _ _ _ _ _ _ (C91_all _ C61_content _) (C91_all _ C101_more _) C91_site_ready _ C101_said); [cbn [In]; tauto|cbn [In]; tauto|intros pl f raw g []]. Qed.
Example C108_command_case : built_alike (C91_world C61_host) Normal (lit "p/stuart.toml") (lit "dist") [lit "p"; lit "dist"] C62_disk C108_disk.
Proof. refine (C108_command _ _ _ _ _ _ _ _ _ _ _ _ _ _ _ _ (C91_all _ C61_content _) (C91_all _ C108_content _) C91_site_ready C108_undone C108_relabelled); cbn [In]; tauto. Qed.
Example C109_command_case : built_alike (C91_world C61_host) Normal (lit "p/stuart.toml") (lit "dist") [lit "p"; lit "dist"] C109_disk C62_disk.
Proof. refine (C109_command _ _ _ _ _ _ _ _ _ _ _ _ _ _ (C91_all _ (C109_more C109_extra) _) (C91_all _ C61_content _) C109_site_ready _ C109_thinned); [cbn [In]; tauto|cbn [In]; tauto|intros pl f raw g []]. Qed.
Example C107_command_ready content : content = C107_without \/ content = C107_with ->
  command_ready (C91_world C107_host) (lit "p/stuart.toml") (lit "dist") [lit "p"] (lit "stuart.toml") [lit "p"; lit "dist"] C91_raw [] (C107_disk content) content (EDir []).
Proof.
  intros I. split; [repeat split; reflexivity|]. split; [now apply join_meant|]. split; [now apply join_meant|]. split; [discriminate|]. split; [reflexivity|]. split; [reflexivity|].
  split; [split; [eexists; reflexivity|]; intros ks A; apply C107_no_static in A; discriminate A|].
  exists [], (C107_disk content). destruct I as [-> | ->]; (split; [exists [], []; repeat split; constructor|]; split; [constructor|]; split; [reflexivity|]; split; [reflexivity|]; split; [now left|];
    split; [reflexivity|]; split; [repeat first [apply ed_file|apply ed_dir|constructor]; vm_compute; intuition discriminate|];
    split; [intros e L; vm_compute in L; injection L as <-; repeat first [constructor|discriminate|now vm_compute; intuition discriminate]|];
    split; [intros e L; vm_compute in L; injection L as <-; repeat first [constructor|discriminate|now vm_compute; intuition discriminate]|]; split; [reflexivity|now left]).
Qed.
Example C107_command_case : built_alike (C91_world C107_host) Normal (lit "p/stuart.toml") (lit "dist") [lit "p"; lit "dist"] (C107_disk C107_without) (C107_disk C107_with).
Proof.
  refine (C107_command _ _ _ _ _ _ _ _ _ _ _ _ _ _ (C107_command_ready _ (or_introl eq_refl)) (C107_command_ready _ (or_intror eq_refl)) _ (C107_imported _ _)).
  split; [exact C107_in_order|]. split; [exact C107_no_conflict|exact C107_no_overlap].
Qed.
