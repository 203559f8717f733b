(** PropMain.v -- properties C76 to C78: whole runs of the program. *)

From Coq Require Import String List NArith ZArith Bool.
From Verif Require Import Text Utf8 Json Base Syntax Parse Tree Interp Build Disk Cli Load Dev New Report Main.
From Verif Require Import SpecScope SpecRender SpecTemplate SpecTree SpecDisk SpecProject SpecChars SpecSite SpecNew SpecUtf8 SpecMain.
From Verif Require Import NewFacts NewSite MainFacts.
Import ListNotations.

(** ** C76 *)
(** Status 0 without a report, status 1 with exactly one, at the end; 101 is a panic. *)
Theorem C76_status : forall w lv c d d' x items, main w lv c d = (d', x, items) ->
  (x = Exit 0 -> forall e, ~ In (Report e) items) /\
  (x = Exit 1 -> exists pre e, items = pre ++ [Report e] /\ forall e', ~ In (Report e') pre) /\
  (x = Exit 0 \/ x = Exit 1 \/ x = Exit 101 \/ x = Runs).
Proof. exact exit_status. Qed.
Print Assumptions C76_status.
(** The level changes neither the disk nor the status nor the reports. *)
Theorem C76_level : forall w lv lv' c d, fst (main w lv c d) = fst (main w lv' c d) /\
  filter complaint (snd (main w lv c d)) = filter complaint (snd (main w lv' c d)).
Proof. exact level_same. Qed.
Print Assumptions C76_level.
(** With [-v] nothing more is written than without. *)
Theorem C76_verbose : forall w c d, main w Verbose c d = main w Normal c d.
Proof. exact verbose_normal. Qed.
Print Assumptions C76_verbose.
(** With [-q] only errors are written.  Missing: [bench]. *)
Theorem C76_quiet_partial : forall w c d, (forall n, c <> CmdBench n) ->
  Forall (fun i => complaint i = true) (snd (main w Quiet c d)).
Proof. exact quiet_only. Qed.
Print Assumptions C76_quiet_partial.
(** [bench] shows its progress. *)
Theorem C76_quiet_refuted : exists w c d d' items, main w Quiet c d = (d', Exit 0, items) /\ In (Bar 1 1) items /\ In Blank items.
Proof. exact bench_loud. Qed.
Print Assumptions C76_quiet_refuted.
(** After status 0, every error that was written is about a source of a plugin that another followed. *)
Theorem C76_sources_partial : forall w lv c d d' items i, main w lv c d = (d', Exit 0, items) -> In i items -> complaint i = true ->
  exists p r deps name s, manifest_of w c p /\ manifest_says w p d r deps /\ i = PluginReport name s /\ not_last_source deps name s.
Proof. exact success_complains. Qed.
Print Assumptions C76_sources_partial.
(** There are such runs: an error is written, and the build succeeds. *)
Theorem C76_sources_refuted : exists w c d d' items name s, main w Quiet c d = (d', Exit 0, items) /\ items = [PluginReport name s].
Proof. exact fallback_complains. Qed.
Print Assumptions C76_sources_refuted.

(** A build, the same with a mistake in a page, the same without a manifest. *)
Example C76_good : match main C76_world Normal C76_build (C76_disk "x") with (_, x, items) =>
  x = Exit 0 /\ items = [Log (lit "Building"); Log (lit "Finished")] end.
Proof. vm_compute. split; reflexivity. Qed.
Example C76_bad : match main C76_world Normal C76_build (C76_disk "{{ nope() }}") with (d', x, items) =>
  d' = C76_disk "{{ nope() }}" /\ x = Exit 1 /\ firstn 2 items = [Log (lit "Building"); Blank] /\ length items = 3 end.
Proof. vm_compute. repeat split; reflexivity. Qed.
Example C76_none : main C76_world Quiet C76_build (EDir []) = (EDir [], Exit 1, [Report (ME_Msg (lit "invalid manifest path"))]).
Proof. reflexivity. Qed.

(** ** C77 *)
(** A project in order: [stuart build] exits with 0 and the output directory has exactly the files of the site. *)
Theorem C77_build : forall w lv manifest output d dir name r deps d0 ps content statics out,
  untroubled w -> meant (w_cwd w) manifest (dir ++ [name]) -> manifest_says w (dir ++ [name]) d r deps ->
  loads_all (lo_js (w_loader w)) (load_from_source (w_loader w) (w_load_faults w) dir) deps d d0 ps ->
  what (dir ++ [lit "scripts"]) d0 = KNone -> cf_meta (to_config r) = false -> flat_map pl_parsers ps = [] ->
  lookup (dir ++ [lit "content"]) d0 = Some content ->
  lookup (dir ++ [lit "static"]) d0 = Some statics \/ (lookup (dir ++ [lit "static"]) d0 = None /\ statics = EDir []) ->
  what (dir ++ [lit "temp"]) d0 = KNone -> ent_distinct d0 ->
  names_at inward (dir ++ [lit "content"]) d0 -> names_at plain (dir ++ [lit "static"]) d0 ->
  meant dir output out -> out <> [] -> what (parent out) d0 = KDir -> what out d0 = KNone \/ what out d0 = KDir ->
  let vars := page_vars (w_osenv w) (lit "production") in
  site_in_order (w_host w) ps vars content -> static_in_order statics ->
  no_conflict (w_host w) ps vars content statics -> no_overlap (w_host w) ps vars content (to_config r) statics ->
  exists d' items, main w lv (CmdBuild manifest output) d = (d', Exit 0, items) /\
    forall q o, what (out ++ q) d' = KFile o <-> file_at (w_host w) ps vars content (to_config r) statics q o.
Proof. exact main_project. Qed.
Print Assumptions C77_build.
(** [stuart clean] takes back what [stuart build] did. *)
Theorem C77_undo : forall w lv lv' dir r d d1 items, untroubled w -> w_cwd w = dir ->
  what (dir ++ [lit "scripts"]) d = KNone \/ (forall env n x, w_scripts w env n x = (x, ScriptOk)) ->
  manifest_says w (dir ++ [lit "stuart.toml"]) d r [] -> ent_distinct d ->
  names_at inward (dir ++ [lit "content"]) d -> names_at plain (dir ++ [lit "static"]) d ->
  (forall n, In n [lit "dist"; lit "_build"; lit "metadata.json"; lit "temp"] -> what (dir ++ [n]) d = KNone) ->
  main w lv (CmdBuild (lit "stuart.toml") (lit "dist")) d = (d1, Exit 0, items) ->
  exists d2, main w lv' CmdClean d1 = (d2, Exit 0, []) /\ forall q, what q d2 = what q d.
Proof. exact undo. Qed.
Print Assumptions C77_undo.
(** [stuart new], then [stuart build] and [stuart clean] in the new directory. *)
Theorem C77_new : forall w l1 l2 l3 png toml no_git name dir d, untroubled w -> w_template w = basic_site png toml ->
  meant (w_cwd w) name dir -> dir <> [] -> what dir d = KNone -> what (parent dir) d = KDir ->
  no_git = true \/ (only_git (g_init (w_git w)) /\ relative name) -> ent_distinct d ->
  toml_plain name -> scalars name ->
  (forall n e, g_name (w_git w) = Some n -> g_email (w_git w) = Some e -> (toml_plain n /\ scalars n) /\ toml_plain e /\ scalars e) ->
  let author := known_author (g_name (w_git w)) (g_email (w_git w)) in
  (forall t, site_manifest t name author -> w_toml w t = TomlOk (RawConfig name author None) []) ->
  exists d1 d2 d3 n1 n2, main w l1 (CmdNew name no_git) d = (d1, Exit 0, n1) /\
    main (cd dir w) l2 (CmdBuild (lit "stuart.toml") (lit "dist")) d1 = (d2, Exit 0, n2) /\
    (forall q o, what (dir ++ [lit "dist"] ++ q) d2 = KFile o <->
      In (q, o) [([lit "index.html"], enc fresh_page); ([lit "lightning.png"], png); ([lit "style.css"], enc basic_style)]) /\
    main (cd dir w) l3 CmdClean d2 = (d3, Exit 0, []) /\ forall q, what q d3 = what q d1.
Proof. exact main_new. Qed.
Print Assumptions C77_new.
(** A build without plugins and scripts that fails, other than in a write, has changed nothing. *)
Theorem C77_failed : forall w lv manifest output d dir name d' items e, meant (w_cwd w) manifest (dir ++ [name]) ->
  (forall r deps, manifest_says w (dir ++ [name]) d r deps -> deps = []) -> what (dir ++ [lit "scripts"]) d = KNone ->
  main w lv (CmdBuild manifest output) d = (d', Exit 1, items ++ [Report e]) -> e <> ME (E_Fs FE_Write) -> d' = d.
Proof. exact failed_same. Qed.
Print Assumptions C77_failed.

(** The project of [stuart new], built from another directory, into a directory beside it. *)
Example C77_disk : ent := EDir [(lit "w", EDir [(lit "site", EDir [(lit "stuart.toml", EFile []);
  (lit "content", fresh_content); (lit "static", fresh_static [137%N])])])].
Example C77_world : world := cd [lit "w"] C76_world.
Example C77_built : exists d' items,
  main C77_world Normal (CmdBuild (lit "site/stuart.toml") (lit "../out")) C77_disk = (d', Exit 0, items) /\
  forall q o, what ([lit "w"; lit "out"] ++ q) d' = KFile o <-> In (q, o) (fresh_files [137%N]).
Proof.
  destruct (C77_build C77_world Normal (lit "site/stuart.toml") (lit "../out") C77_disk [lit "w"; lit "site"] (lit "stuart.toml")
    (RawConfig (lit "s") None None) [] C77_disk [] fresh_content (fresh_static [137%N]) [lit "w"; lit "out"]) as (d' & items & M & F); try reflexivity.
  - repeat split; reflexivity.
  - now apply join_meant.
  - exists [], []. repeat split; constructor.
  - constructor.
  - now left.
  - repeat first [apply ed_file|apply ed_dir|constructor]; vm_compute; intuition discriminate.
  - intros e L; vm_compute in L; injection L as <-; repeat first [constructor|discriminate|now vm_compute; intuition discriminate].
  - intros e L; vm_compute in L; injection L as <-; repeat first [constructor|discriminate|now vm_compute; intuition discriminate].
  - now apply join_meant.
  - discriminate.
  - now left.
  - apply fresh_in_order.
  - split; [eexists; reflexivity|]. intros ks A. apply static_entries in A. intuition discriminate.
  - apply fresh_no_conflict.
  - apply fresh_no_overlap.
  - exists d', items. split; [exact M|]. intros q o. rewrite F. apply fresh_file_at.
Qed.
(** A project built and cleaned. *)
Example C77_undone : exists d1 items d2, main C76_world Normal C76_build (C76_disk "x") = (d1, Exit 0, items) /\
  main C76_world Normal CmdClean d1 = (d2, Exit 0, []) /\ d2 = C76_disk "x" /\ d1 <> C76_disk "x".
Proof. do 3 eexists. split; [vm_compute; reflexivity|]. split; [vm_compute; reflexivity|]. split; [vm_compute; reflexivity|discriminate]. Qed.
Example C77_undone_case : untroubled C76_world /\ w_cwd C76_world = [] /\ what [lit "scripts"] (C76_disk "x") = KNone /\
  manifest_says C76_world [lit "stuart.toml"] (C76_disk "x") (RawConfig (lit "s") None None) [] /\ ent_distinct (C76_disk "x") /\
  (forall n, In n [lit "dist"; lit "_build"; lit "metadata.json"; lit "temp"] -> what [n] (C76_disk "x") = KNone).
Proof.
  split; [repeat split; reflexivity|]. split; [reflexivity|]. split; [reflexivity|]. split; [exists [], []; repeat split; constructor|].
  split; [repeat first [apply ed_file|apply ed_dir|constructor]; vm_compute; intuition discriminate|].
  intros n [<-|[<-|[<-|[<-|[]]]]]; reflexivity.
Qed.
(** A new project, for a user git knows. *)
Example C77_user : git := Git (Some (lit "Ada")) (Some (lit "ada@x")) simple_init.
Example C77_author : text := lit "Ada <ada@x>".
Example C77_new_world : world := World (w_host C76_world) (w_ser C76_world) [] (w_scripts C76_world)
  (fun _ => TomlOk (RawConfig (lit "site") (Some C77_author) None) []) (w_loader C76_world) (w_load_faults C76_world)
  (w_build_faults C76_world) (w_clean_faults C76_world) (basic_site [137%N] []) C77_user None None [lit "w"].
Example C77_new_case : exists d1 d2 d3 n1 n2, main C77_new_world Normal (CmdNew (lit "site") false) (EDir [(lit "w", EDir [])]) = (d1, Exit 0, n1) /\
  main (cd [lit "w"; lit "site"] C77_new_world) Normal (CmdBuild (lit "stuart.toml") (lit "dist")) d1 = (d2, Exit 0, n2) /\
  main (cd [lit "w"; lit "site"] C77_new_world) Normal CmdClean d2 = (d3, Exit 0, []).
Proof.
  destruct (C77_new C77_new_world Normal Normal Normal [137%N] [] false (lit "site") [lit "w"; lit "site"] (EDir [(lit "w", EDir [])]))
    as (d1 & d2 & d3 & n1 & n2 & A & B & _ & C & _); try reflexivity.
  - repeat split; reflexivity.
  - now apply join_meant.
  - discriminate.
  - right. split; [exact simple_only|intros r; discriminate].
  - repeat first [apply ed_file|apply ed_dir|constructor]; vm_compute; intuition discriminate.
  - repeat (apply Forall_cons; [split; [discriminate|split; [discriminate|split; [now right|discriminate]]]|]); apply Forall_nil.
  - repeat (apply Forall_cons; [now left|]); apply Forall_nil.
  - intros n e [= <-] [= <-]. split; split;
      first [repeat (apply Forall_cons; [now left|]); apply Forall_nil|repeat (apply Forall_cons; [split; [discriminate|split; [discriminate|split; [now right|discriminate]]]|]); apply Forall_nil].
  - exists d1, d2, d3, n1, n2. repeat split; assumption.
Qed.
(** The page of [C76_bad]: the report is not about a write. *)
Example C77_failed_case : exists items e, main C76_world Quiet C76_build (C76_disk "{{ nope() }}") = (C76_disk "{{ nope() }}", Exit 1, items ++ [Report e]) /\
  e <> ME (E_Fs FE_Write) /\ meant (w_cwd C76_world) (lit "stuart.toml") ([] ++ [lit "stuart.toml"]).
Proof. exists []. eexists. split; [vm_compute; reflexivity|]. split; [discriminate|]. now apply join_meant. Qed.

(** ** C78 *)
(** The scripts of a build are started with these variables: the absolute paths of the manifest, of its
    directory, of the temporary and of the output directory, and the mode. *)
Theorem C78_build : forall w manifest output dir name out, Forall plain (dir ++ [name]) ->
  meant (w_cwd w) manifest (dir ++ [name]) -> meant dir output out ->
  exists env, script_vars env (dir ++ [name]) dir out (lit "production") /\
    forall s, s env = w_scripts w env -> forall lv d,
      main (with_scripts s w) lv (CmdBuild manifest output) d = main w lv (CmdBuild manifest output) d.
Proof. exact told_build. Qed.
Print Assumptions C78_build.
Theorem C78_bench : forall w iters dir, Forall plain dir -> w_cwd w = dir ->
  exists env, script_vars env (dir ++ [lit "stuart.toml"]) dir (dir ++ [lit "dist"]) (lit "benchmark") /\
    forall s, s env = w_scripts w env -> forall lv d, main (with_scripts s w) lv (CmdBench iters) d = main w lv (CmdBench iters) d.
Proof. exact told_bench. Qed.
Print Assumptions C78_bench.

(** A script that writes its variables next to the manifest. *)
Example C78_script : list (text * text) -> script_oracle := fun env _ d =>
  (update [lit "w"; lit "seen"] (Some (EFile (flat_map (fun kv => enc (fst kv ++ lit "=" ++ snd kv ++ lit ";")) env))) d, ScriptOk).
Example C78_disk : ent := EDir [(lit "w", EDir [(lit "stuart.toml", EFile []); (lit "content", EDir [(lit "root.html", EFile [])]);
  (lit "scripts", EDir [(lit "onPreBuild.sh", EFile [])])])].
Example C78_case : match main (with_scripts C78_script (cd [lit "w"] C76_world)) Normal (CmdBuild (lit "stuart.toml") (lit "../out")) C78_disk with (d', x, items) =>
  x = Exit 0 /\ what [lit "w"; lit "seen"] d' = KFile (enc (lit
    "STUART_MANIFEST_PATH=/w/stuart.toml;STUART_MANIFEST_DIR=/w;STUART_TEMP_DIR=/w/temp;STUART_OUT_DIR=/w/../out;STUART_ENV=production;")) end.
Proof. vm_compute. split; reflexivity. Qed.
Example C78_meant : Forall plain ([lit "w"] ++ [lit "stuart.toml"]) /\ meant [lit "w"] (lit "stuart.toml") ([lit "w"] ++ [lit "stuart.toml"]) /\
  meant [lit "w"] (lit "../out") [lit "out"].
Proof.
  split; [repeat (constructor; [repeat split; try discriminate; vm_compute; intuition discriminate|]); constructor|].
  split; now apply join_meant.
Qed.
