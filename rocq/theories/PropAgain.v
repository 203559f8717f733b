(** PropAgain.v -- properties C66 and C67: building the same sources again. *)

From Coq Require Import String List NArith ZArith Bool Lia.
From Verif Require Import Text Utf8 Json Base Syntax Parse Tree Interp Build Disk Cli SpecScope SpecTree SpecDisk SpecProject.
From Verif Require Import AgainFacts.
Import ListNotations.

(** ** C66 *)
(** [e] and [e'] are what the scripts before the builds made of [d] and [d']: the rest of the disks,
    what was built before, the output directories and the faults may all differ. *)
Theorem C66_sources : forall m f f' c c' d d' e e' c1 d1 c1' d1',
  same_project c c' -> ran (m_script m) (cx_pre c) d e -> ran (m_script m) (cx_pre c') d' e' ->
  same_sources (cx_dir c) e e' -> ent_distinct e -> ent_distinct e' -> inward_project c e ->
  (forall x, fl_temp f = Some (Some x) -> ent_distinct x) -> (forall x, fl_temp f' = Some (Some x) -> ent_distinct x) ->
  cli_build m f c d = (c1, d1, COk) -> cli_build m f' c' d' = (c1', d1', COk) ->
  ~ above (output_dir c) (cx_dir c ++ [lit "metadata.json"]) -> ~ above (output_dir c') (cx_dir c ++ [lit "metadata.json"]) ->
  scripts_leave (m_script m) (cx_post c) (above (output_dir c)) -> scripts_leave (m_script m) (cx_post c') (above (output_dir c')) ->
  forall q, what (output_dir c ++ q) d1 = what (output_dir c' ++ q) d1'.
Proof. exact same_site. Qed.
Print Assumptions C66_sources.
(** Sources in error give the same error wherever they are built. *)
Theorem C66_errors : forall m f f' c c' d d' e e' c1 d1 err,
  same_project c c' -> ran (m_script m) (cx_pre c) d e -> ran (m_script m) (cx_pre c') d' e' ->
  same_sources (cx_dir c) e e' -> cli_build m f c d = (c1, d1, CErr (CE err)) -> err <> E_Fs FE_Write ->
  exists c1', cli_build m f' c' d' = (c1', e', CErr (CE err)).
Proof. exact same_error. Qed.
Print Assumptions C66_errors.
(** A second build, by the same process or a new one, succeeds and leaves every path as it is.
    Missing: projects with a [temp] directory, for which this is false. *)
Theorem C66_again_partial : forall m c d c1 d1 c2, cli_build m no_faults c d = (c1, d1, COk) -> c2 = c \/ c2 = c1 ->
  idle_scripts m c -> ent_distinct d -> inward_project c d -> lookup (cx_dir c ++ [lit "temp"]) d = None ->
  Forall (fun n => apart (output_dir c) (cx_dir c ++ [n])) [lit "content"; lit "static"; lit "temp"; lit "metadata.json"] ->
  exists d2, cli_build m no_faults c2 d1 = (c1, d2, COk) /\ (forall q, what q d2 = what q d1) /\
    ent_distinct d1 /\ same_sources (cx_dir c) d d1.
Proof. exact build_again. Qed.
Print Assumptions C66_again_partial.
Example C66_machine : machine :=
  Machine (Host (fun _ => false) (fun t => t) None (fun _ => Some VNull)) (fun _ => enc (lit "meta")) [] (fun _ d => (d, ScriptOk)).
Example C66_page : bytes := enc (lit "{{ begin(""b"") }}x{{ end(""b"") }}").
Example C66_entries : list (text * ent) :=
  [(lit "stuart.toml", EFile []); (lit "scripts", EDir [(lit "onPreBuild.sh", EFile [])]);
   (lit "static", EDir [(lit "s.css", EFile [1%N; 255%N])]);
   (lit "content", EDir [(lit "root.html", EFile (enc (lit "r{{ insert(""b"") }}")));
                         (lit "index.html", EFile C66_page); (lit "about.html", EFile C66_page)])].
Example C66_disk : ent := EDir [(lit "p", EDir C66_entries)].
(** Another disk with the same sources, an output directory full of other things, and more. *)
Example C66_disk' : ent :=
  EDir [(lit "elsewhere", EFile [7%N]); (lit "p", EDir ((lit "dist", EDir [(lit "old.html", EFile [3%N]); (lit "about", EFile [])]) :: C66_entries))].
Example C66_manifest : raw_config := RawConfig (lit "n") None (Some (Settings None None (Some true))).
Example C66_project : context := init C66_manifest [] [lit "p"] (lit "dist") (lit "production") C66_disk.
Example C66_project' : context := init C66_manifest [] [lit "p"] (lit "site") (lit "production") C66_disk'.
Example C66_inward : inward_project C66_project C66_disk.
Proof.
  split; [|split; [|split; [|reflexivity]]]; intros e L; vm_compute in L; try discriminate; injection L as <-;
    repeat (constructor; cbn; try (intros H; vm_compute in H); try tauto; try (repeat split; intros H; vm_compute in H; intuition discriminate)).
Qed.
Example C66_distinct : ent_distinct C66_disk /\ ent_distinct C66_disk'.
Proof. split; repeat (constructor; cbn; try (intros H; vm_compute in H; intuition discriminate)). Qed.
Example C66_case : exists c1 d1 c1' d1',
  same_project C66_project C66_project' /\ same_sources (cx_dir C66_project) C66_disk C66_disk' /\
  cli_build C66_machine no_faults C66_project C66_disk = (c1, d1, COk) /\
  cli_build C66_machine no_faults C66_project' C66_disk' = (c1', d1', COk) /\
  what [lit "p"; lit "dist"; lit "about"; lit "index.html"] d1 = KFile (enc (lit "rx")) /\
  what [lit "p"; lit "site"; lit "about"; lit "index.html"] d1' = KFile (enc (lit "rx")).
Proof.
  do 4 eexists. split; [repeat split|]. split; [intros n I; destruct I as [<-|[<-|[<-|[]]]]; reflexivity|].
  split; [vm_compute; reflexivity|]. split; [vm_compute; reflexivity|]. split; vm_compute; reflexivity.
Qed.
Example C66_again_case : exists c1 d1 d2, cli_build C66_machine no_faults C66_project C66_disk = (c1, d1, COk) /\
  idle_scripts C66_machine C66_project /\ cx_pre C66_project = [lit "onPreBuild.sh"] /\
  cli_build C66_machine no_faults c1 d1 = (c1, d2, COk) /\
  what [lit "p"; lit "metadata.json"] d1 = KFile (enc (lit "meta")) /\ what [lit "p"; lit "dist"; lit "s.css"] d2 = KFile [1%N; 255%N].
Proof. do 3 eexists. split; [vm_compute; reflexivity|]. split; [now intros n d _|]. split; [reflexivity|]. split; [vm_compute; reflexivity|]. split; vm_compute; reflexivity. Qed.
Example C66_broken : ent := EDir [(lit "p", EDir [(lit "content", EDir [(lit "index.html", EFile (enc (lit "{{ nosuch() }}")))])])].
Example C66_errors_case : exists c1 err, cli_build C66_machine no_faults (init C66_manifest [] [lit "p"] (lit "dist") (lit "production") C66_broken) C66_broken = (c1, C66_broken, CErr (CE err)) /\ err <> E_Fs FE_Write.
Proof. do 2 eexists. split; [vm_compute; reflexivity|discriminate]. Qed.
(** What is in a [temp] directory is in the first site and not in the second. *)
Example C66_temp : ent := EDir [(lit "p", EDir ((lit "temp", EDir [(lit "t.txt", EFile [5%N])]) :: C66_entries))].
Theorem C66_temp_refuted : exists m c d c1 d1 c2 d2, cli_build m no_faults c d = (c1, d1, COk) /\
  idle_scripts m c /\ ent_distinct d /\ inward_project c d /\
  Forall (fun n => apart (output_dir c) (cx_dir c ++ [n])) [lit "content"; lit "static"; lit "temp"; lit "metadata.json"] /\
  cli_build m no_faults c d1 = (c2, d2, COk) /\
  what (output_dir c ++ [lit "t.txt"]) d1 = KFile [5%N] /\ what (output_dir c ++ [lit "t.txt"]) d2 = KNone.
Proof.
  exists C66_machine, C66_project, C66_temp. do 4 eexists. split; [vm_compute; reflexivity|]. split; [now intros n d _|].
  split; [repeat (constructor; cbn; try (intros H; vm_compute in H; intuition discriminate))|]. split.
  { split; [|split; [|split; [|reflexivity]]]; intros e L; vm_compute in L; try discriminate; injection L as <-;
    repeat (constructor; cbn; try (intros H; vm_compute in H); try tauto; try (repeat split; intros H; vm_compute in H; intuition discriminate)). }
  split; [repeat (apply Forall_cons; [split; intros [r H]; vm_compute in H; discriminate H|]); constructor|].
  split; [vm_compute; reflexivity|]. split; vm_compute; reflexivity.
Qed.
Print Assumptions C66_temp_refuted.

(** ** C67 *)
(** [stuart bench] builds as many times as asked for, one build after the other in mode [benchmark],
    and stops at the first that fails, with its result. *)
Theorem C67_runs : forall m fs iters r0 ps dir d d' r n, numeral n iters -> fits_usize n -> bench m fs iters r0 ps dir d = (d', r) ->
  let c := init r0 ps dir (lit "dist") (lit "benchmark") d in
  (r = COk /\ exists c', builds m fs (N.to_nat n) c d c' d') \/
  (r <> COk /\ exists i c1 d1 c', (i < N.to_nat n)%nat /\ builds m fs i c d c1 d1 /\ cli_build m (fs i) c1 d1 = (c', d', r)).
Proof. exact bench_runs. Qed.
Print Assumptions C67_runs.
(** A number of iterations that is none: nothing is built. *)
Theorem C67_bad : forall m fs iters r0 ps dir d, (forall n, numeral n iters -> ~ fits_usize n) ->
  bench m fs iters r0 ps dir d = (d, CErr CE_Msg).
Proof. exact bench_bad. Qed.
Print Assumptions C67_bad.
(** However many times it builds, the disk is that of one build. *)
Theorem C67_same_partial : forall m iters r0 ps dir d n c1 d1, let c := init r0 ps dir (lit "dist") (lit "benchmark") d in
  numeral n iters -> fits_usize n -> (0 < n)%N -> cli_build m no_faults c d = (c1, d1, COk) ->
  idle_scripts m c -> ent_distinct d -> inward_project c d -> lookup (dir ++ [lit "temp"]) d = None ->
  exists d', bench m (fun _ => no_faults) iters r0 ps dir d = (d', COk) /\ forall q, what q d' = what q d1.
Proof. exact bench_same. Qed.
Print Assumptions C67_same_partial.
Example C67_case : exists d', bench C66_machine (fun _ => no_faults) (lit "+3") C66_manifest [] [lit "p"] C66_disk = (d', COk) /\
  what [lit "p"; lit "dist"; lit "about"; lit "index.html"] d' = KFile (enc (lit "rx")).
Proof. eexists. split; vm_compute; reflexivity. Qed.
(** The second of three builds cannot write. *)
Example C67_stops : exists d', bench C66_machine (fun k => match k with 1 => Faults None (Some (Fault 2 None)) None | _ => no_faults end) (lit "3") C66_manifest [] [lit "p"] C66_disk
  = (d', CErr (CE (E_Fs FE_Write))) /\ what [lit "p"; lit "dist"; lit "about"; lit "index.html"] d' = KNone.
Proof. eexists. split; vm_compute; reflexivity. Qed.
Example C67_zero : bench C66_machine (fun _ => no_faults) (lit "0") C66_manifest [] [lit "p"] C66_disk = (C66_disk, COk) /\
  bench C66_machine (fun _ => no_faults) (lit "-1") C66_manifest [] [lit "p"] C66_disk = (C66_disk, CErr CE_Msg).
Proof. split; vm_compute; reflexivity. Qed.
