(** PropStop.v -- property C87: commands that cannot do their work say why. *)

From Coq Require Import String List NArith ZArith Bool.
From Verif Require Import Text Utf8 Json Base Syntax Parse Tree Interp Build Disk Cli Load Dev New Report Main.
From Verif Require Import SpecScope SpecTree SpecDisk SpecProject SpecChars SpecMarkdown SpecDev SpecMain SpecStop.
From Verif Require Import MainFacts StopFacts.
Import ListNotations.

(** ** C87 *)
(** A manifest that cannot be used: the report says why, nothing else is written, the disk stays. *)
Theorem C87_manifest : forall w lv c p d e, manifest_of w c p -> manifest_fault w p d e -> main w lv c d = (d, Exit 1, [Report e]).
Proof. exact main_fault. Qed.
Print Assumptions C87_manifest.
(** Every other manifest describes a site. *)
Theorem C87_cases : forall w p d, (exists e, manifest_fault w p d e) \/ (exists r deps, manifest_says w p d r deps).
Proof. exact fault_or_site. Qed.
Print Assumptions C87_cases.
(** The parser of the manifest counts from zero; the report shows the line it means, and counts from one. *)
Theorem C87_shown : forall s d p b t l c m ls cur, what p d = KFile b -> utf8_text b t -> text_lines ls t -> nth_error ls (N.to_nat l) = Some cur ->
  exists rep, main_printed s d (ME_Manifest (TB p (1 + l) (1 + c) m)) = Ok (lit "error: " ++ unlines rep) /\
    with_preview (show_path (sn_cwd s) p) (1 + l) (1 + c) [m] None cur (N.to_nat c - 1) rep.
Proof. exact manifest_shown. Qed.
Print Assumptions C87_shown.
(** A plugin that does not load. *)
Theorem C87_plugins : forall w lv c dir name d r deps d', manifest_of w c (dir ++ [name]) -> manifest_says w (dir ++ [name]) d r deps ->
  stops_loading w dir deps d d' LErr -> exists items, main w lv c d = (d', Exit 1, items ++ [Report (ME_Msg (lit "Plugins failed to load"))]).
Proof. exact main_stopped. Qed.
Print Assumptions C87_plugins.
(** [stuart bench] with a number of iterations that is none. *)
Theorem C87_iterations : forall w lv iters d r deps d0 ps, let dir := w_cwd w in manifest_says w (dir ++ [lit "stuart.toml"]) d r deps ->
  loads_all (lo_js (w_loader w)) (load_from_source (w_loader w) (w_load_faults w) dir) deps d d0 ps ->
  (forall n, SpecScope.numeral n iters -> ~ fits_usize n) ->
  exists items, main w lv (CmdBench iters) d = (d0, Exit 1, items ++ [Report (ME_Msg (lit "invalid value for iterations"))]).
Proof. exact main_iterations. Qed.
Print Assumptions C87_iterations.
(** [stuart clean] names what it could not remove; what comes before is gone, everything else stays. *)
Theorem C87_clean : forall w lv d gone n fault m, let dir := w_cwd w in ent_distinct d -> what (dir ++ [lit "stuart.toml"]) d <> KNone ->
  clean_stops (w_clean_faults w) dir d gone n fault m ->
  exists d', main w lv CmdClean d = (d', Exit 1, [Report (ME_Msg m)]) /\
    (forall q, among dir gone q -> what q d' = KNone) /\
    (forall q, ~ among dir (n :: gone) q -> what q d' = what q d) /\
    (fault = None -> forall q, ~ among dir gone q -> what q d' = what q d).
Proof. exact clean_stopped. Qed.
Print Assumptions C87_clean.
Theorem C87_nowhere : forall w lv d, what (w_cwd w ++ [lit "stuart.toml"]) d = KNone ->
  main w lv CmdClean d = (d, Exit 1, [Report (ME_Msg (lit "current working directory is not a Stuart project"))]).
Proof. exact clean_nowhere. Qed.
Print Assumptions C87_nowhere.
Theorem C87_cleaned : forall w lv d, let dir := w_cwd w in ent_distinct d -> what (dir ++ [lit "stuart.toml"]) d <> KNone ->
  (exists gone n fault m, clean_stops (w_clean_faults w) dir d gone n fault m) \/
  (exists d', main w lv CmdClean d = (d', Exit 0, [])).
Proof. exact clean_or. Qed.
Print Assumptions C87_cleaned.

(** A manifest of three lines with a mistake in the second. *)
Example C87_text : text := lit "[site]" ++ [c_lf] ++ lit "name = x" ++ [c_lf] ++ lit "author = 1".
Example C87_disk : ent := EDir [(lit "stuart.toml", EFile (enc C87_text)); (lit "dist", EDir [(lit "a.html", EFile [])]);
  (lit "_build", EDir []); (lit "metadata.json", EDir [(lit "notes", EFile [])])].
Example C87_world : world := let w := C76_world in
  World (w_host w) (w_ser w) (w_osenv w) (w_scripts w) (fun _ => TomlErr (Some (1, 7)%N) (lit "invalid string")) (w_loader w) (w_load_faults w) (w_build_faults w)
    (w_clean_faults w) (w_template w) (w_git w) (w_new_fault w) (w_ignore_fault w) (w_cwd w).
Example C87_fault : manifest_fault C87_world [lit "stuart.toml"] C87_disk (ME_Manifest (TB [lit "stuart.toml"] 2 8 (lit "invalid string"))).
Proof. apply (mf_place C87_world [lit "stuart.toml"] C87_disk (enc C87_text) C87_text 1 7); [reflexivity|apply Utf8Facts.decoding; reflexivity|reflexivity]. Qed.
Example C87_report : main C87_world Normal C76_build C87_disk = (C87_disk, Exit 1, [Report (ME_Manifest (TB [lit "stuart.toml"] 2 8 (lit "invalid string")))]) /\
  main_printed (Screen [] false (lit "")) C87_disk (ME_Manifest (TB [lit "stuart.toml"] 2 8 (lit "invalid string"))) =
    Ok (lit "error: " ++ unlines [lit "invalid string"; lit "  --> stuart.toml:2:8"; lit "  |"; lit "2 | name = x"; lit "  |       ^^^ error occurred here"; lit "  |"]).
Proof. split; vm_compute; reflexivity. Qed.
(** A directory named like the metadata file stays. *)
Example C87_stops : ent_distinct C87_disk /\ clean_stops (w_clean_faults C87_world) [] C87_disk [lit "dist"; lit "_build"] (lit "metadata.json") None (lit "failed to remove metadata file") /\
  main C87_world Normal CmdClean C87_disk =
    (EDir [(lit "stuart.toml", EFile (enc C87_text)); (lit "metadata.json", EDir [(lit "notes", EFile [])])], Exit 1, [Report (ME_Msg (lit "failed to remove metadata file"))]).
Proof.
  split; [repeat (constructor; cbn; try (repeat constructor; cbn; intuition discriminate))|]. split; [|vm_compute; reflexivity].
  apply (cs_metadata (w_clean_faults C87_world)).
  - intros [_ [X|X]]; now apply X.
  - intros [_ [X|X]]; now apply X.
  - split; [discriminate|right; discriminate].
Qed.
Example C87_no_plugin : exists items, main (C76_with [(lit "p", lit "x.js")]) Quiet C76_build (C76_disk "x") = (C76_disk "x", Exit 1, items ++ [Report (ME_Msg (lit "Plugins failed to load"))]).
Proof. exists [PluginReport (lit "p") (lit "x.js")]. vm_compute. reflexivity. Qed.
Example C87_no_number : main C76_world Quiet (CmdBench (lit "many")) (C76_disk "x") = (C76_disk "x", Exit 1, [Report (ME_Msg (lit "invalid value for iterations"))]).
Proof. vm_compute. reflexivity. Qed.
