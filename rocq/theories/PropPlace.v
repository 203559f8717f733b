(** PropPlace.v -- property C85 for whole projects and for the command [stuart build]. *)

From Coq Require Import String List NArith ZArith Bool.
From Verif Require Import Text Utf8 Json Base Syntax Parse Tree Interp Build Disk Cli Load New Report Main.
From Verif Require Import SpecScope SpecTree SpecDisk SpecProject SpecChars SpecMain SpecAlike SpecPlace.
From Verif Require Import Utf8Facts DiskFacts NewFacts AgainFacts MoveFacts MainFacts PlaceFacts PropMove.
Import ListNotations.

(** A build of a project in [p] and of a copy in [p'], whatever else is on the two disks: the two directories are the same afterwards, with the output directory,
    the metadata file and what the scripts left, and the results are the same up to paths; also when the disk fails in the middle. *)
Theorem C85_project : forall p p' m m' f c c' d d' o,
  m_host m' = m_host m -> m_ser m' = m_ser m -> m_osenv m' = m_osenv m -> portable p p' (m_script m) (m_script m') ->
  cx_mode c' = cx_mode c -> cx_pre c' = cx_pre c -> cx_post c' = cx_post c -> cx_dir c = p -> cx_dir c' = p' ->
  st_config (cx_stuart c') = st_config (cx_stuart c) -> st_plugins (cx_stuart c') = st_plugins (cx_stuart c) ->
  steady (moved p p') None (st_plugins (cx_stuart c)) -> lookup p' d' = lookup p d ->
  meant p (cx_output c) (p ++ o) -> meant p' (cx_output c') (p' ++ o) -> o <> [] ->
  (forall d1, ran (m_script m) (cx_pre c) d d1 -> inward_project c d1) ->
  lookup p' (snd (fst (cli_build m' f c' d'))) = lookup p (snd (fst (cli_build m f c d))) /\
  like_result (moved p p') (snd (cli_build m f c d)) (snd (cli_build m' f c' d')) /\
  build_says m' f c' d' = build_says m f c d.
Proof. exact project_place. Qed.
Print Assumptions C85_project.

(** [stuart build], started in any two directories: the same exit status and messages, the latter up to paths, and the same project directory afterwards. *)
Theorem C85_command : forall w lv manifest output q q' p p' name r deps ps d d' d0 d0' o,
  meant q manifest (p ++ [name]) -> meant q' manifest (p' ++ [name]) ->
  manifest_says w (p ++ [name]) d r deps -> manifest_says w (p' ++ [name]) d' r deps ->
  loads_all (lo_js (w_loader w)) (load_from_source (w_loader w) (w_load_faults w) p) deps d d0 ps ->
  loads_all (lo_js (w_loader w)) (load_from_source (w_loader w) (w_load_faults w) p') deps d' d0' ps ->
  lookup p' d0' = lookup p d0 -> steady (moved p p') None ps ->
  portable p p' (w_scripts w (script_env (p ++ [name]) output (lit "production"))) (w_scripts w (script_env (p' ++ [name]) output (lit "production"))) ->
  meant p output (p ++ o) -> meant p' output (p' ++ o) -> o <> [] ->
  (forall d1, ran (w_scripts w (script_env (p ++ [name]) output (lit "production"))) (pre_scripts (lookup (p ++ [lit "scripts"]) d0)) d0 d1 ->
     inward_project (init r ps p output (lit "production") d0) d1) ->
  exists d1 d1' e loading loading' l l',
    main (cd q w) lv (CmdBuild manifest output) d = (d1, e, loading ++ l) /\ main (cd q' w) lv (CmdBuild manifest output) d' = (d1', e, loading' ++ l') /\
    lookup p' d1' = lookup p d1 /\ (deps = [] -> loading = [] /\ loading' = []) /\ Forall2 (like_note (moved p p')) l l'.
Proof. exact place. Qed.
Print Assumptions C85_command.

(** A project with a script that puts a file into the temporary directory, in [/home/a] and in [/srv]. *)
Example C85_put (dir : path) : script_oracle := fun n d =>
  match lookup dir d with Some (EDir l) => (update (dir ++ [lit "temp"]) (Some (EDir [(n, EFile [1%N])])) d, ScriptOk) | _ => (d, CouldNotExecute) end.
Example C85_a : path := [lit "home"; lit "a"].
Example C85_b : path := [lit "srv"].
Example C85_portable : portable C85_a C85_b (C85_put C85_a) (C85_put C85_b).
Proof.
  intros n x x' E. unfold C85_put. rewrite E. destruct (lookup C85_a x) as [[b|l|]|] eqn:A; cbn [fst snd]; (split; [reflexivity|]); try congruence.
  rewrite (update_sub C85_a [lit "temp"] _ x (EDir l)), (update_sub C85_b [lit "temp"] _ x' (EDir l)); congruence.
Qed.
Example C85_world : world := World C85_host (fun _ => [9%N]) []
  (fun env => C85_put (match assoc (lit "STUART_MANIFEST_DIR") env with Some t => if text_eqb t (lit "/srv") then C85_b else C85_a | None => [] end))
  (fun _ => TomlOk (RawConfig (lit "s") None (Some (Settings None None (Some true)))) []) no_loader (fun _ _ => None)
  (fun _ => no_faults) (fun _ => None) (EDir []) no_user None None [].
Example C85_files (body : string) : ent := EDir
  [(lit "stuart.toml", EFile []); (lit "content", C85_content body); (lit "static", EDir [(lit "s.css", EFile [2%N])]);
   (lit "scripts", EDir [(lit "onPreBuild.sh", EFile [])])].
Example C85_one (body : string) : ent := EDir [(lit "home", EDir [(lit "a", C85_files body)])].
Example C85_two (body : string) : ent := EDir [(lit "x", EFile [7%N]); (lit "srv", C85_files body)].
Example C85_run (body : string) : ent * exit * list note := main (cd C85_a C85_world) Normal (CmdBuild (lit "stuart.toml") (lit "dist")) (C85_one body).
Example C85_copy (body : string) : ent * exit * list note := main (cd C85_b C85_world) Normal (CmdBuild (lit "stuart.toml") (lit "dist")) (C85_two body).
Example C85_inward (body : string) d1 : ran (C85_put C85_a) [lit "onPreBuild.sh"] (C85_one body) d1 ->
  inward_project (init (RawConfig (lit "s") None (Some (Settings None None (Some true)))) [] C85_a (lit "dist") (lit "production") (C85_one body)) d1.
Proof.
  intros R. apply CliFacts.run_scripts_ran in R. injection R as <-.
  split; [|split; [|split; [|reflexivity]]]; intros e L; vm_compute in L; try discriminate; injection L as <-;
    repeat (constructor; cbn; try (intros H; vm_compute in H); try tauto; try (repeat split; intros H; vm_compute in H; intuition discriminate)).
Qed.
Example C85_whole body : exists d1 d1' e l l', C85_run body = (d1, e, l) /\ C85_copy body = (d1', e, l') /\ lookup C85_b d1' = lookup C85_a d1 /\ Forall2 (like_note (moved C85_a C85_b)) l l'.
Proof.
  destruct (C85_command C85_world Normal (lit "stuart.toml") (lit "dist") C85_a C85_b C85_a C85_b (lit "stuart.toml") (RawConfig (lit "s") None (Some (Settings None None (Some true)))) [] []
    (C85_one body) (C85_two body) (C85_one body) (C85_two body) [lit "dist"]) as (d1 & d1' & e & g & g' & l & l' & X1 & X2 & X3 & X4 & X5).
  - now apply join_meant.
  - now apply join_meant.
  - exists [], []. repeat split; constructor.
  - exists [], []. repeat split; constructor.
  - constructor.
  - constructor.
  - reflexivity.
  - intros pl [].
  - exact C85_portable.
  - now apply join_meant.
  - now apply join_meant.
  - discriminate.
  - exact (C85_inward body).
  - exists d1, d1', e, (g ++ l), (g' ++ l'). destruct (X4 eq_refl) as [-> ->]. repeat split; assumption.
Qed.
Example C85_good : snd (fst (C85_run "hi")) = Exit 0 /\ snd (fst (C85_copy "hi")) = Exit 0 /\
  what (C85_b ++ [lit "dist"; lit "blog"; lit "index.html"]) (fst (fst (C85_copy "hi"))) = KFile (enc (lit "[" ++ [c_lf] ++ lit "hi]")) /\
  what (C85_b ++ [lit "dist"; lit "onPreBuild.sh"]) (fst (fst (C85_copy "hi"))) = KFile [1%N].
Proof. vm_compute. repeat split. Qed.
Example C85_bad : exists l, snd (C85_run "{{ $x }}") = l ++ [Report (ME (E_Process (TB (C85_a ++ [lit "content"; lit "blog"; lit "index.html"]) 2 2 (XE_UndefinedVariable (lit "x")))))] /\
  snd (C85_copy "{{ $x }}") = l ++ [Report (ME (E_Process (TB (C85_b ++ [lit "content"; lit "blog"; lit "index.html"]) 2 2 (XE_UndefinedVariable (lit "x")))))].
Proof. exists [Log (lit "Executing"); Log (lit "Building"); Blank]. vm_compute. split; reflexivity. Qed.
