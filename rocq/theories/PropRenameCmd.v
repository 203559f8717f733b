(** PropRenameCmd.v -- property C89 for whole runs of stuart build. *)

From Coq Require Import String List NArith ZArith Bool.
From Verif Require Import Text Utf8 Json Base Syntax Parse Tree Interp Build Disk Cli Load Dev New Report Main.
From Verif Require Import SpecChars SpecScope SpecTree SpecSite SpecDisk SpecProject SpecMain SpecAlike SpecSays SpecLayout SpecRename.
From Verif Require NewFacts.
From Verif Require Import Utf8Facts MainFacts RenameFacts RenameCmd PropRename.
Import ListNotations.

(** The whole command, [stuart build], in a project without scripts whose plugins are read and not built:
    it succeeds in both cases or in none, and all it leaves is the same but for the templates that were renamed. *)
Theorem C89_command : forall w lv manifest output dir name r deps ps d d' e e', meant (w_cwd w) manifest (dir ++ [name]) ->
  manifest_says w (dir ++ [name]) d r deps -> name <> lit "content" ->
  loads_all (lo_js (w_loader w)) (load_from_source (w_loader w) (w_load_faults w) dir) deps d d ps ->
  loads_all (lo_js (w_loader w)) (load_from_source (w_loader w) (w_load_faults w) dir) deps d' d' ps ->
  what (dir ++ [lit "scripts"]) d = KNone -> edited (dir ++ [lit "content"]) e e' d d' -> ent_distinct e -> renamed (w_host w) ps (lit "content") e e' ->
  ((exists d1 items, main w lv (CmdBuild manifest output) d = (d1, Exit 0, items)) <-> (exists d1' items', main w lv (CmdBuild manifest output) d' = (d1', Exit 0, items'))) /\
  forall d1 items d1' items', main w lv (CmdBuild manifest output) d = (d1, Exit 0, items) -> main w lv (CmdBuild manifest output) d' = (d1', Exit 0, items') ->
    forall q, what q d1' = what q d1 \/ (SpecLayout.template_at (dir ++ [lit "content"]) q /\ exists b b', what q d1 = KFile b /\ what q d1' = KFile b').
Proof. exact rename_command. Qed.
Print Assumptions C89_command.

(** The list of posts of C89, built from the command line. *)
Example C89_world : Main.world := Main.World C89_host (fun _ => enc (lit "meta")) [] (fun _ _ d => (d, ScriptOk))
  (fun _ => TomlOk (RawConfig (lit "s") None None) []) no_loader (fun _ _ => None) (fun _ => no_faults) (fun _ => None) (EDir []) NewFacts.no_user None None [].
Example C89_project (v w u : string) : ent := EDir [(lit "stuart.toml", EFile []); (lit "content", C89_content v w u)].
Example C89_run (v w u : string) := main C89_world Normal (CmdBuild (lit "stuart.toml") (lit "dist")) (C89_project v w u).
Example C89_anywhere name : renamed C89_host [] name (C89_content "p" "q" "all") (C89_content "q" "p" "items").
Proof. assert (R := C89_renamed). inversion R; subst. now apply rn_dir. Qed.
Example C89_whole : (exists d1 items, C89_run "p" "q" "all" = (d1, Exit 0, items)) <-> (exists d1' items', C89_run "q" "p" "items" = (d1', Exit 0, items')).
Proof.
  refine (proj1 (C89_command C89_world Normal (lit "stuart.toml") (lit "dist") [] (lit "stuart.toml") (RawConfig (lit "s") None None) [] []
    (C89_project "p" "q" "all") (C89_project "q" "p" "items") (C89_content "p" "q" "all") (C89_content "q" "p" "items") _ _ _ _ _ _ _ C89_distinct (C89_anywhere _))).
  - apply join_meant. reflexivity.
  - exists [], []. split; [reflexivity|]. split; [apply decoding; reflexivity|reflexivity].
  - discriminate.
  - constructor.
  - constructor.
  - reflexivity.
  - split; reflexivity.
Qed.
Example C89_exits : match C89_run "q" "p" "items" with (d, x, _) => x = Exit 0 /\ what [lit "dist"; lit "index.html"] d = KFile (enc (lit "<AxyBxy>xy")) end.
Proof. vm_compute. split; reflexivity. Qed.
