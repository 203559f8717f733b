(** PropHistory.v -- property C102: what was run in a project before does not matter to a build. *)

From Coq Require Import String List NArith ZArith Bool.
From Verif Require Import Text Utf8 Json Base Syntax Parse Tree Interp Build Disk Cli Load Dev New Report Main Server Live.
From Verif Require Import SpecScope SpecTree SpecDisk SpecProject SpecMain SpecServer SpecLive SpecRecover SpecHistory.
From Verif Require Import Utf8Facts DiskFacts CliFacts AgainFacts NewFacts ProgramFacts MainFacts HistoryFacts PropAgain.
Import ListNotations.

(** Whatever was run before, and whatever came of it, [stuart build] succeeds as it does in a fresh copy of the project, and leaves the same. *)
Theorem C102_same : forall w lv lv' r deps ps d d1 items d', untroubled w -> let dir := w_cwd w in let c := init r ps dir (lit "dist") (lit "production") d in
  manifest_says w (dir ++ [lit "stuart.toml"]) d r deps -> loads_alike w deps d ps -> what (dir ++ [lit "scripts"]) d = KNone ->
  inward_project c d -> clear_way c d -> nothing_stale c d ->
  main w lv (CmdBuild (lit "stuart.toml") (lit "dist")) d = (d1, Exit 0, items) -> past w d d' -> clear_way c d' ->
  exists d2 items', main w lv' (CmdBuild (lit "stuart.toml") (lit "dist")) d' = (d2, Exit 0, items') /\ forall q, what q d2 = what q d1.
Proof. exact history_same. Qed.
Print Assumptions C102_same.
(** So it does in any two copies of a project, whatever was generated in them. *)
Theorem C102_copy : forall w lv lv' r deps ps d d1 items d', untroubled w -> let dir := w_cwd w in let c := init r ps dir (lit "dist") (lit "production") d in
  manifest_says w (dir ++ [lit "stuart.toml"]) d r deps -> loads_alike w deps d ps -> what (dir ++ [lit "scripts"]) d = KNone ->
  inward_project c d -> clear_way c d -> nothing_stale c d ->
  main w lv (CmdBuild (lit "stuart.toml") (lit "dist")) d = (d1, Exit 0, items) -> same_copy c d d' -> clear_way c d' ->
  exists d2 items', main w lv' (CmdBuild (lit "stuart.toml") (lit "dist")) d' = (d2, Exit 0, items') /\ forall q, what q d2 = what q d1.
Proof. exact copy_same. Qed.
Print Assumptions C102_copy.
(** Nothing but what is generated has been changed. *)
Theorem C102_keeps : forall w r deps ps d d', let dir := w_cwd w in let c := init r ps dir (lit "dist") (lit "production") d in
  manifest_says w (dir ++ [lit "stuart.toml"]) d r deps -> loads_alike w deps d ps -> what (dir ++ [lit "scripts"]) d = KNone -> what (dir ++ [lit "temp"]) d = KNone ->
  inward_project c d -> nothing_stale c d -> past w d d' -> same_work dir d d'.
Proof. exact history_keeps. Qed.
Print Assumptions C102_keeps.
(** A project with an error in a page has the same error. *)
Theorem C102_fails : forall w lv lv' r deps ps d d1 items e d', untroubled w -> let dir := w_cwd w in let c := init r ps dir (lit "dist") (lit "production") d in
  manifest_says w (dir ++ [lit "stuart.toml"]) d r deps -> loads_alike w deps d ps -> what (dir ++ [lit "scripts"]) d = KNone -> what (dir ++ [lit "temp"]) d = KNone ->
  inward_project c d -> nothing_stale c d ->
  main w lv (CmdBuild (lit "stuart.toml") (lit "dist")) d = (d1, Exit 1, items ++ [Report (ME e)]) -> e <> E_Fs FE_Write -> past w d d' ->
  exists items', main w lv' (CmdBuild (lit "stuart.toml") (lit "dist")) d' = (d', Exit 1, items' ++ [Report (ME e)]).
Proof. exact history_fails. Qed.
Print Assumptions C102_fails.

(** A project with a plugin; a build that breaks off, cleaning that breaks off, a benchmark by somebody with another environment, a session of [stuart dev]. *)
Example C102_plugin : plugin := Plugin (lit "shout") [] [].
Example C102_loader : loader := Loader true (fun _ => false) (fun _ _ d => (d, false)) (fun _ d => (d, false)) (fun _ => None) (fun _ => None) (fun _ d => (d, false))
  (fun p d => match lookup p d with Some (EFile _) => Some C102_plugin | _ => None end) (fun _ _ => Err []).
Example C102_world (env : list (text * text)) (fs : nat -> faults) (cs : nat -> option (option ent)) : world :=
  World (m_host C66_machine) (fun _ => enc (lit "meta")) env (fun _ _ d => (d, ScriptOk)) (fun _ => TomlOk C66_manifest [(lit "shout", lit "shout.so")]) C102_loader (fun _ _ => None)
    fs cs (EDir []) no_user None None [lit "p"].
Example C102_fine : world := C102_world [] (fun _ => no_faults) (fun _ => None).
Example C102_disk : ent := EDir [(lit "p", EDir [(lit "stuart.toml", EFile []); (lit "shout.so", EFile [1%N]);
  (lit "content", EDir [(lit "root.html", EFile (enc (lit "r{{ insert(""b"") }}"))); (lit "index.html", EFile C66_page)])])].
Example C102_build : command := CmdBuild (lit "stuart.toml") (lit "dist").
Example C102_cut : world := C102_world [] (fun _ => Faults None (Some (Fault 2 None)) None) (fun _ => None).
Example C102_torn : world := C102_world [] (fun _ => no_faults) (fun _ => Some (Some (EDir [(lit "x", EFile [])]))).
Example C102_other : world := C102_world [(lit "USER", lit "u")] (fun _ => no_faults) (fun _ => None).
Example C102_disk1 : ent := fst (fst (main C102_cut Normal C102_build C102_disk)).
Example C102_disk2 : ent := fst (fst (main C102_torn Normal CmdClean C102_disk1)).
Example C102_disk3 : ent := fst (fst (main C102_other Quiet (CmdBench (lit "2")) C102_disk2)).
Example C102_disk4 : ent := disk_of (li_server (live_init C102_cut Quiet (lit "stuart.toml") (lit "dist") C102_disk3)).
Example C102_page : path := [lit "p"; lit "dist"; lit "index.html"].
Example C102_stages : what C102_page C102_disk1 = KNone /\ what [lit "p"; lit "dist"; lit "x"] C102_disk2 = KFile [] /\ what C102_page C102_disk3 = KFile (enc (lit "rx")) /\ what C102_page C102_disk4 = KNone.
Proof. vm_compute. repeat split. Qed.
Example C102_past : past C102_fine C102_disk C102_disk4.
Proof.
  assert (S : forall w' lv k d d1 d2, same_seat C102_fine w' -> chore k -> d1 = fst (fst (main w' lv k d)) -> past C102_fine d1 d2 -> past C102_fine d d2).
  { intros w' lv k d d1 d2 SS CH D P. destruct (main w' lv k d) as [[x e] items] eqn:E. cbn [fst] in D. subst x. exact (hy_command C102_fine d w' lv k d1 e items d2 SS CH E P). }
  assert (V : forall w' lv d d2, same_seat C102_fine w' -> d2 = disk_of (li_server (live_init w' lv (lit "stuart.toml") (lit "dist") d)) -> past C102_fine d d2).
  { intros w' lv d d2 SS ->. exact (hy_dev C102_fine d w' lv [] (live_init w' lv (lit "stuart.toml") (lit "dist") d) _ SS (lr_nil _ _ _ _) (fun p x H => H) (hy_none _ _)). }
  assert (D1 : C102_disk1 = fst (fst (main C102_cut Normal C102_build C102_disk))) by (unfold C102_disk1; exact eq_refl).
  assert (D2 : C102_disk2 = fst (fst (main C102_torn Normal CmdClean C102_disk1))) by (unfold C102_disk2; exact eq_refl).
  assert (D3 : C102_disk3 = fst (fst (main C102_other Quiet (CmdBench (lit "2")) C102_disk2))) by (unfold C102_disk3; exact eq_refl).
  assert (D4 : C102_disk4 = disk_of (li_server (live_init C102_cut Quiet (lit "stuart.toml") (lit "dist") C102_disk3))) by (unfold C102_disk4; exact eq_refl).
  assert (W1 : same_seat C102_fine C102_cut) by now repeat split. assert (W2 : same_seat C102_fine C102_torn) by now repeat split. assert (W3 : same_seat C102_fine C102_other) by now repeat split.
  refine (S C102_cut Normal C102_build C102_disk C102_disk1 C102_disk4 W1 ch_build D1 _).
  refine (S C102_torn Normal CmdClean C102_disk1 C102_disk2 C102_disk4 W2 ch_clean D2 _).
  refine (S C102_other Quiet (CmdBench (lit "2")) C102_disk2 C102_disk3 C102_disk4 W3 (ch_bench (lit "2")) D3 _).
  refine (V C102_cut Quiet C102_disk3 C102_disk4 W1 D4).
Qed.
Example C102_alike d : what [lit "p"; lit "shout.so"] d = KFile [1%N] -> loads_alike C102_fine [(lit "shout", lit "shout.so")] d [C102_plugin].
Proof.
  intros W0 d' fs SW. apply plugins_loaded. assert (W : what [lit "p"; lit "shout.so"] d' = KFile [1%N]).
  { rewrite SW; [exact W0|]. apply (not_generated [lit "p"] (lit "shout.so") []). cbn. intuition discriminate. }
  unfold what in W. destruct (lookup [lit "p"; lit "shout.so"] d') as [[b|l|]|] eqn:L; try discriminate.
  change (w_cwd C102_fine) with [lit "p"]. change (w_loader C102_fine) with C102_loader. unfold load_plugins.
  change (split_char 59%N (lit "shout.so")) with (lit "shout.so", @nil text). cbn [load_sources]. change (skip_source (lo_js C102_loader) (lit "shout.so")) with false. cbv iota.
  unfold load_from_source. change (join_path [lit "p"] (lit "shout.so")) with [lit "p"; lit "shout.so"]. rewrite L. unfold load_path. change (extension (last [lit "p"; lit "shout.so"] [])) with (Some (lit "so")).
  change (text_eqb (lit "so") (lit "js") || text_eqb (lit "so") (lit "mjs")) with false. cbv iota. cbn [C102_loader lo_binary]. rewrite L. reflexivity.
Qed.
Example C102_inward : inward_project (init C66_manifest [C102_plugin] [lit "p"] (lit "dist") (lit "production") C102_disk) C102_disk.
Proof.
  split; [|split; [|split; [|reflexivity]]]; intros x L; vm_compute in L; try discriminate; injection L as <-;
    repeat (constructor; cbn; try (intros H; vm_compute in H); try tauto; try (repeat split; intros H; vm_compute in H; intuition discriminate)).
Qed.
Example C102_says : manifest_says C102_fine [lit "p"; lit "stuart.toml"] C102_disk C66_manifest [(lit "shout", lit "shout.so")].
Proof. exists [], []. repeat split; constructor. Qed.
Example C102_case : exists d2 items, main C102_fine Quiet C102_build C102_disk4 = (d2, Exit 0, items) /\ what C102_page d2 = KFile (enc (lit "rx")) /\
  forall q, what q d2 = what q (fst (fst (main C102_fine Normal C102_build C102_disk))).
Proof.
  destruct (main C102_fine Normal C102_build C102_disk) as [[d1 e] items] eqn:E. assert (X : e = Exit 0 /\ what C102_page d1 = KFile (enc (lit "rx"))) by (vm_compute in E; injection E as <- <- _; now split).
  destruct X as [-> X].
  destruct (C102_same C102_fine Normal Quiet C66_manifest [(lit "shout", lit "shout.so")] [C102_plugin] C102_disk d1 items C102_disk4) as (d2 & it & Y & Z).
  - now repeat split.
  - exact C102_says.
  - exact (C102_alike C102_disk eq_refl).
  - reflexivity.
  - exact C102_inward.
  - split; [repeat (constructor; cbn; try (intros H; vm_compute in H; intuition discriminate))|]. split; [reflexivity|]. split; [now left|]. intros _. now left.
  - split; [reflexivity|]. discriminate.
  - exact E.
  - exact C102_past.
  - split; [vm_compute; repeat (constructor; cbn; try (intros H; vm_compute in H; intuition discriminate))|]. split; [vm_compute; reflexivity|]. split; [vm_compute; tauto|]. intros _. vm_compute. eauto.
  - exists d2, it. split; [exact Y|]. split; [now rewrite Z|exact Z].
Qed.
Example C102_case_keeps : same_work [lit "p"] C102_disk C102_disk4.
Proof.
  refine (C102_keeps C102_fine C66_manifest [(lit "shout", lit "shout.so")] [C102_plugin] C102_disk C102_disk4 C102_says (C102_alike C102_disk eq_refl) eq_refl eq_refl C102_inward _ C102_past). split; [reflexivity|discriminate].
Qed.
(** A page with an error: after cleaning and a benchmark the error is the same. *)
Example C102_bad : ent := EDir [(lit "p", EDir [(lit "stuart.toml", EFile []); (lit "shout.so", EFile [1%N]);
  (lit "dist", EDir [(lit "old.html", EFile [])]); (lit "content", EDir [(lit "root.html", EFile (enc (lit "r{{ insert(""b"") }}"))); (lit "index.html", EFile (enc (lit "{{ end(""b"") }}")))])])].
Example C102_bad1 : ent := fst (fst (main C102_other Normal CmdClean C102_bad)).
Example C102_bad2 : ent := fst (fst (main C102_other Normal (CmdBench (lit "3")) C102_bad1)).
Example C102_bad_past : past C102_fine C102_bad C102_bad2 /\ what [lit "p"; lit "dist"] C102_bad2 = KNone.
Proof.
  split; [|vm_compute; reflexivity].
  assert (S : forall w' lv k d d1 d2, same_seat C102_fine w' -> chore k -> d1 = fst (fst (main w' lv k d)) -> past C102_fine d1 d2 -> past C102_fine d d2).
  { intros w' lv k d d1 d2 SS CH D P. destruct (main w' lv k d) as [[x e] items] eqn:E. cbn [fst] in D. subst x. exact (hy_command C102_fine d w' lv k d1 e items d2 SS CH E P). }
  assert (D1 : C102_bad1 = fst (fst (main C102_other Normal CmdClean C102_bad))) by (unfold C102_bad1; exact eq_refl).
  assert (D2 : C102_bad2 = fst (fst (main C102_other Normal (CmdBench (lit "3")) C102_bad1))) by (unfold C102_bad2; exact eq_refl).
  assert (W3 : same_seat C102_fine C102_other) by now repeat split.
  exact (S C102_other Normal CmdClean C102_bad C102_bad1 C102_bad2 W3 ch_clean D1 (S C102_other Normal (CmdBench (lit "3")) C102_bad1 C102_bad2 C102_bad2 W3 (ch_bench (lit "3")) D2 (hy_none _ _))).
Qed.
Example C102_case_fails : exists e items, main C102_fine Quiet C102_build C102_bad2 = (C102_bad2, Exit 1, items ++ [Report (ME e)]) /\
  snd (main C102_fine Quiet C102_build C102_bad) = [Report (ME e)].
Proof.
  destruct (main C102_fine Quiet C102_build C102_bad) as [[d1 x] items] eqn:E. assert (X : exists e, x = Exit 1 /\ items = [] ++ [Report (ME e)] /\ e <> E_Fs FE_Write) by (vm_compute in E; injection E as _ <- <-; eexists; split; [reflexivity|split; [reflexivity|discriminate]]).
  destruct X as (e & -> & -> & NE). exists e.
  destruct (C102_fails C102_fine Quiet Quiet C66_manifest [(lit "shout", lit "shout.so")] [C102_plugin] C102_bad d1 [] e C102_bad2) as [it Y]; try exact E; try exact NE; try exact (proj1 C102_bad_past); try reflexivity.
  - now repeat split.
  - exists [], []. repeat split; constructor.
  - exact (C102_alike C102_bad eq_refl).
  - split; [|split; [|split; [|reflexivity]]]; intros x L; vm_compute in L; try discriminate; injection L as <-;
      repeat (constructor; cbn; try (intros H; vm_compute in H); try tauto; try (repeat split; intros H; vm_compute in H; intuition discriminate)).
  - split; [reflexivity|discriminate].
  - exists it. split; [exact Y|reflexivity].
Qed.
(** A copy with an old site in it. *)
Example C102_old : ent := EDir [(lit "p", EDir [(lit "stuart.toml", EFile []); (lit "shout.so", EFile [1%N]);
  (lit "content", EDir [(lit "root.html", EFile (enc (lit "r{{ insert(""b"") }}"))); (lit "index.html", EFile C66_page)]); (lit "dist", EDir [(lit "old.html", EFile [])]); (lit "metadata.json", EFile [])])].
Example C102_case_copy : exists d2 items, main C102_fine Quiet C102_build C102_old = (d2, Exit 0, items) /\ what [lit "p"; lit "dist"; lit "old.html"] d2 = KNone /\
  forall q, what q d2 = what q (fst (fst (main C102_fine Normal C102_build C102_disk))).
Proof.
  destruct (main C102_fine Normal C102_build C102_disk) as [[d1 e] items] eqn:E. assert (X : e = Exit 0 /\ what [lit "p"; lit "dist"; lit "old.html"] d1 = KNone) by (vm_compute in E; injection E as <- <- _; now split).
  destruct X as [-> X].
  destruct (C102_copy C102_fine Normal Quiet C66_manifest [(lit "shout", lit "shout.so")] [C102_plugin] C102_disk d1 items C102_old) as (d2 & it & Y & Z).
  - now repeat split.
  - exact C102_says.
  - exact (C102_alike C102_disk eq_refl).
  - reflexivity.
  - exact C102_inward.
  - split; [repeat (constructor; cbn; try (intros H; vm_compute in H; intuition discriminate))|]. split; [reflexivity|]. split; [now left|]. intros _. now left.
  - split; [reflexivity|]. discriminate.
  - exact E.
  - split; [intros n [<-|[<-|[]]]; reflexivity|]. split; [|split; [reflexivity|discriminate]]. intros q G.
    unfold what, C102_old, C102_disk. destruct q as [|a q]; [reflexivity|]. cbn [lookup assoc]. destruct (text_eqb (lit "p") a) eqn:A; [|reflexivity].
    apply TextFacts.text_eqb_eq in A. subst a. destruct q as [|b q]; [reflexivity|]. cbn [lookup assoc].
    destruct (text_eqb (lit "stuart.toml") b); [reflexivity|]. destruct (text_eqb (lit "shout.so") b); [reflexivity|]. destruct (text_eqb (lit "content") b); [reflexivity|].
    destruct (text_eqb (lit "dist") b) eqn:B1; [apply TextFacts.text_eqb_eq in B1; subst b; destruct G; left; now exists q|].
    destruct (text_eqb (lit "metadata.json") b) eqn:B2; [apply TextFacts.text_eqb_eq in B2; subst b; destruct G; right; right; now exists q|]. reflexivity.
  - split; [vm_compute; repeat (constructor; cbn; try (intros H; vm_compute in H; intuition discriminate))|]. split; [vm_compute; reflexivity|]. split; [vm_compute; tauto|]. intros _. vm_compute. eauto.
  - exists d2, it. split; [exact Y|]. split; [now rewrite Z|exact Z].
Qed.
