(** PropRecover.v -- property C95: a build that was cut short is made good by the next one. *)

From Coq Require Import String List NArith ZArith Bool.
From Verif Require Import Text Utf8 Json Base Syntax Parse Tree Interp Build Disk Cli Load New Report Main.
From Verif Require Import SpecScope SpecTree SpecDisk SpecProject SpecMain SpecRecover.
From Verif Require Import Utf8Facts DiskFacts CliFacts AgainFacts NewFacts MainFacts RecoverFacts PropAgain.
Import ListNotations.

(** From any disk that differs from [d] in the output directory and the metadata file only, the build succeeds as it does from [d], and leaves the same. *)
Theorem C95_from_partial : forall m c d c1 d1 c' d', cli_build m no_faults c d = (c1, d1, COk) ->
  same_project c c' -> cx_pre c' = cx_pre c -> cx_post c' = cx_post c -> cx_output c' = cx_output c ->
  idle_scripts m c -> clear_way c d -> inward_project c d -> clear_way c d' -> same_but_output c d d' ->
  Forall (fun n => apart (output_dir c) (cx_dir c ++ [n])) [lit "content"; lit "static"; lit "temp"; lit "metadata.json"] ->
  exists c2 d2, cli_build m no_faults c' d' = (c2, d2, COk) /\ same_project c c2 /\ (forall q, what q d2 = what q d1).
Proof. exact build_from. Qed.
Print Assumptions C95_from_partial.
(** After any number of builds that failed anywhere, by this process or by others. *)
Theorem C95_recovers_partial : forall m c d c1 d1 d' c', cli_build m no_faults c d = (c1, d1, COk) ->
  idle_scripts m c -> clear_way c d -> inward_project c d ->
  Forall (fun n => apart (output_dir c) (cx_dir c ++ [n])) [lit "content"; lit "static"; lit "temp"; lit "metadata.json"] -> attempts m c d d' ->
  same_project c c' -> cx_pre c' = cx_pre c -> cx_post c' = cx_post c -> cx_output c' = cx_output c ->
  exists c2 d2, cli_build m no_faults c' d' = (c2, d2, COk) /\ (forall q, what q d2 = what q d1).
Proof. exact recovers. Qed.
Print Assumptions C95_recovers_partial.
(** Runs of [stuart build]. *)
Theorem C95_command_partial : forall w lv lv' manifest output dir name r d d1 items d', untroubled w ->
  meant (w_cwd w) manifest (dir ++ [name]) -> manifest_says w (dir ++ [name]) d r [] ->
  what (dir ++ [lit "scripts"]) d = KNone -> name <> lit "metadata.json" ->
  let c := init r [] dir output (lit "production") d in
  clear_way c d -> inward_project c d ->
  Forall (fun n => apart (output_dir c) (dir ++ [n])) [lit "content"; lit "static"; lit "temp"; lit "metadata.json"; lit "scripts"; name] ->
  main w lv (CmdBuild manifest output) d = (d1, Exit 0, items) -> runs w manifest output c d d' ->
  exists d2 items', main w lv' (CmdBuild manifest output) d' = (d2, Exit 0, items') /\ forall q, what q d2 = what q d1.
Proof. exact runs_recover. Qed.
Print Assumptions C95_command_partial.

(** The project of C66. A first build stops in the middle of a page, a second one while removing what the first one left, a third one in the metadata file. *)
Example C95_faults (i : nat) : faults := nth i
  [Faults None (Some (Fault 3 (Some (EFile [0%N])))) None; Faults None (Some (Fault 0 (Some (EDir [(lit "x", EDir [])])))) None; Faults (Some None) None (Some (Fault 0 (Some (EFile []))))] no_faults.
Example C95_after (i : nat) (d : ent) : ent := snd (fst (cli_build C66_machine (C95_faults i) C66_project d)).
Example C95_page : path := [lit "p"; lit "dist"; lit "about"; lit "index.html"].
Example C95_meta : path := [lit "p"; lit "metadata.json"].
Example C95_stages : what C95_page (C95_after 0 C66_disk) = KNone /\ what [lit "p"; lit "dist"; lit "s.css"] (C95_after 0 C66_disk) = KNone /\
  what [lit "p"; lit "dist"; lit "x"] (C95_after 1 (C95_after 0 C66_disk)) = KDir /\
  what C95_page (C95_after 2 (C95_after 1 (C95_after 0 C66_disk))) = KFile (enc (lit "rx")) /\ what C95_meta (C95_after 2 (C95_after 1 (C95_after 0 C66_disk))) = KFile [].
Proof. vm_compute. repeat split. Qed.
Example C95_attempts : attempts C66_machine C66_project C66_disk (C95_after 2 (C95_after 1 (C95_after 0 C66_disk))).
Proof.
  assert (S : forall i d d2, snd (cli_build C66_machine (C95_faults i) C66_project d) <> COk -> clear_way C66_project (C95_after i d) -> attempts C66_machine C66_project (C95_after i d) d2 -> attempts C66_machine C66_project d d2).
  { intros i d d2 _ C A. unfold C95_after in *. destruct (cli_build C66_machine (C95_faults i) C66_project d) as [[c1 d1] r] eqn:E. apply at_more with (C95_faults i) C66_project c1 d1 r; auto. now repeat split. }
  apply (S 0%nat); [vm_compute; discriminate| |apply (S 1%nat); [vm_compute; discriminate| |apply (S 2%nat); [vm_compute; discriminate| |constructor]]];
    (split; [vm_compute; repeat (constructor; cbn; try (intros H; vm_compute in H; intuition discriminate))|]);
    (split; [vm_compute; reflexivity|]); (split; [vm_compute; tauto|]); intros _; vm_compute; eauto.
Qed.
Example C95_case : exists c2 d2, cli_build C66_machine no_faults C66_project (C95_after 2 (C95_after 1 (C95_after 0 C66_disk))) = (c2, d2, COk) /\
  (forall q, what q d2 = what q (snd (fst (cli_build C66_machine no_faults C66_project C66_disk)))) /\ what C95_meta d2 = KFile (enc (lit "meta")).
Proof.
  destruct (cli_build C66_machine no_faults C66_project C66_disk) as [[c1 d1] r] eqn:E. assert (r = COk) by (vm_compute in E; now injection E). subst r.
  destruct (C95_recovers_partial C66_machine C66_project C66_disk c1 d1 (C95_after 2 (C95_after 1 (C95_after 0 C66_disk))) C66_project E) as (c2 & d2 & X & Y); auto.
  - now intros n d _.
  - split; [exact (proj1 C66_distinct)|]. split; [reflexivity|]. split; [now left|]. intros _. now left.
  - exact C66_inward.
  - repeat (apply Forall_cons; [split; intros [s H]; vm_compute in H; discriminate H|]); constructor.
  - exact C95_attempts.
  - now repeat split.
  - exists c2, d2. split; [exact X|]. split; [exact Y|]. rewrite Y. vm_compute in E. injection E as _ <-. reflexivity.
Qed.
(** A file in place of the output directory is in the way. *)
Example C95_way : snd (cli_build C66_machine no_faults C66_project (snd (fst (cli_build C66_machine (Faults None (Some (Fault 1 (Some (EFile [])))) None) C66_project C66_disk)))) = CErr (CE (E_Fs FE_Write)).
Proof. vm_compute. reflexivity. Qed.
(** The same for the command. *)
Example C95_world : world := World (m_host C66_machine) (fun _ => enc (lit "meta")) [] (fun _ _ d => (d, ScriptOk)) (fun _ => TomlOk C66_manifest []) no_loader (fun _ _ => None)
  (fun _ => no_faults) (fun _ => None) (EDir []) no_user None None [lit "p"].
Example C95_disk : ent := EDir [(lit "p", EDir [(lit "stuart.toml", EFile []); (lit "content", EDir [(lit "root.html", EFile (enc (lit "r{{ insert(""b"") }}"))); (lit "index.html", EFile C66_page)])])].
Example C95_cuts (i : nat) : faults := Faults None (Some (Fault 2 None)) None.
Example C95_cut : ent := fst (fst (main (faulty C95_cuts C95_world) Normal (CmdBuild (lit "stuart.toml") (lit "dist")) C95_disk)).
Example C95_index : path := [lit "p"; lit "dist"; lit "index.html"].
Example C95_runs : what C95_index C95_cut = KNone /\ exists d2 items, main C95_world Quiet (CmdBuild (lit "stuart.toml") (lit "dist")) C95_cut = (d2, Exit 0, items) /\ what C95_index d2 = KFile (enc (lit "rx")).
Proof.
  split; [vm_compute; reflexivity|].
  destruct (main C95_world Normal (CmdBuild (lit "stuart.toml") (lit "dist")) C95_disk) as [[d1 e] items] eqn:E. assert (X : e = Exit 0 /\ what C95_index d1 = KFile (enc (lit "rx"))) by (vm_compute in E; injection E as <- <- _; now split).
  destruct X as [-> X].
  destruct (C95_command_partial C95_world Normal Quiet (lit "stuart.toml") (lit "dist") [lit "p"] (lit "stuart.toml") C66_manifest C95_disk d1 items C95_cut) as (d2 & it & Y & Z); try exact E; try reflexivity.
  - now repeat split.
  - now apply join_meant.
  - exists [], []. repeat split; constructor.
  - discriminate.
  - split; [repeat (constructor; cbn; try (intros H; vm_compute in H; intuition discriminate))|]. split; [reflexivity|]. split; [now left|]. intros _. now left.
  - split; [|split; [|split; [|reflexivity]]]; intros x L; vm_compute in L; try discriminate; injection L as <-;
      repeat (constructor; cbn; try (intros H; vm_compute in H); try tauto; try (repeat split; intros H; vm_compute in H; intuition discriminate)).
  - repeat (apply Forall_cons; [split; intros [s H]; vm_compute in H; discriminate H|]); constructor.
  - apply (ru_more C95_world (lit "stuart.toml") (lit "dist") _ C95_disk C95_cuts Normal C95_cut (Exit 1) (snd (main (faulty C95_cuts C95_world) Normal (CmdBuild (lit "stuart.toml") (lit "dist")) C95_disk))); [vm_compute; reflexivity| |constructor].
    split; [vm_compute; repeat (constructor; cbn; try (intros H; vm_compute in H; intuition discriminate))|]. split; [vm_compute; reflexivity|]. split; [vm_compute; tauto|]. intros _. vm_compute. eauto.
  - exists d2, it. split; [exact Y|]. now rewrite Z.
Qed.
