(** PropServer.v -- property C92: whole runs of [stuart dev]. *)

From Coq Require Import String List NArith ZArith Bool.
From Verif Require Import Text Utf8 Json Base Syntax Parse Tree Interp Build Disk Cli Load Dev New Report Main Server.
From Verif Require Import SpecScope SpecTemplate SpecTree SpecDisk SpecProject SpecChars SpecSite SpecNew SpecDev SpecMain SpecServer.
From Verif Require Import NewFacts NewSite DevFacts MainFacts ServerFacts.
Import ListNotations.

(** ** C92 *)
(** Whatever has happened before, after an event that is not passed over the disk, the fate of the process and
    what it has written are those of a new [stuart dev] on the disk at that moment; browsers are told to reload
    if no error is reported.  Missing: changes of the manifest, of the plugins or of the scripts. *)
Theorem C92_restarted_partial : forall w lv manifest output evs d s g p dir name r deps d0 ps,
  meant (w_cwd w) manifest (dir ++ [name]) -> manifest_says w (dir ++ [name]) d r deps ->
  loads_all (lo_js (w_loader w)) (load_from_source (w_loader w) (w_load_faults w) dir) deps d d0 ps ->
  dev_command w lv manifest output evs d = Waiting s ->
  manifest_says w (dir ++ [name]) (g (ss_disk s)) r deps ->
  loads_all (lo_js (w_loader w)) (load_from_source (w_loader w) (w_load_faults w) dir) deps (g (ss_disk s)) (g (ss_disk s)) ps ->
  lookup (dir ++ [lit "scripts"]) (g (ss_disk s)) = lookup (dir ++ [lit "scripts"]) d0 -> ~ passed p ->
  let x := dev_command w lv manifest output (evs ++ [Event g (Some (dir ++ p))]) d in
  let y := dev_command (later (ss_builds s) w) lv manifest output [] (g (ss_disk s)) in
  disk_of x = disk_of y /\ ended x = ended y /\
  exists loading l, (deps = [] -> loading = []) /\ shown_of y = loading ++ line lv (lit "Started") ++ l /\
    shown_of x = ss_shown s ++ Blank :: line lv (lit "Detected") ++ l /\
    (ended x = None -> reloads_of x = (if reported l then 0 else 1) + ss_reloads s).
Proof. exact as_restarted. Qed.
Print Assumptions C92_restarted_partial.
(** An event that is passed over: nothing is built, and the process goes on. *)
Theorem C92_passed : forall w lv manifest output evs d s g p dir name r deps d0 ps,
  meant (w_cwd w) manifest (dir ++ [name]) -> manifest_says w (dir ++ [name]) d r deps ->
  loads_all (lo_js (w_loader w)) (load_from_source (w_loader w) (w_load_faults w) dir) deps d d0 ps ->
  dev_command w lv manifest output evs d = Waiting s -> passed p ->
  exists s', dev_command w lv manifest output (evs ++ [Event g (Some (dir ++ p))]) d = Waiting s' /\
    ss_disk s' = g (ss_disk s) /\ ss_builds s' = ss_builds s /\ ss_reloads s' = ss_reloads s.
Proof. exact as_before. Qed.
Print Assumptions C92_passed.
(** At the start, a project in order is published. *)
Theorem C92_first : forall w lv manifest output d dir name r deps d0 ps content statics out, untroubled w ->
  meant (w_cwd w) manifest (dir ++ [name]) -> manifest_says w (dir ++ [name]) d r deps ->
  loads_all (lo_js (w_loader w)) (load_from_source (w_loader w) (w_load_faults w) dir) deps d d0 ps ->
  meant dir output out -> ready w dir r ps out content statics d0 ->
  exists s, dev_command w lv manifest output [] d = Waiting s /\ published w r ps out content statics (ss_disk s) /\
    forall e, ~ In (Report e) (ss_shown s).
Proof. exact dev_first. Qed.
Print Assumptions C92_first.
(** So is one that has been put in order, whatever it was before, and browsers are told. *)
Theorem C92_published_partial : forall w lv manifest output evs d s g p dir name r deps d0 ps content statics out, untroubled w ->
  meant (w_cwd w) manifest (dir ++ [name]) -> manifest_says w (dir ++ [name]) d r deps ->
  loads_all (lo_js (w_loader w)) (load_from_source (w_loader w) (w_load_faults w) dir) deps d d0 ps ->
  what (dir ++ [lit "scripts"]) d0 = KNone ->
  dev_command w lv manifest output evs d = Waiting s -> ~ passed p ->
  manifest_says w (dir ++ [name]) (g (ss_disk s)) r deps ->
  loads_all (lo_js (w_loader w)) (load_from_source (w_loader w) (w_load_faults w) dir) deps (g (ss_disk s)) (g (ss_disk s)) ps ->
  meant dir output out -> ready w dir r ps out content statics (g (ss_disk s)) ->
  exists s', dev_command w lv manifest output (evs ++ [Event g (Some (dir ++ p))]) d = Waiting s' /\
    published w r ps out content statics (ss_disk s') /\ ss_reloads s' = S (ss_reloads s).
Proof. exact dev_published. Qed.
Print Assumptions C92_published_partial.
(** An error ends the process only at the start, when the manifest or the plugins are at fault. *)
Theorem C92_errors : forall w lv manifest output evs d d' e l, dev_command w lv manifest output evs d = Over d' e l ->
  (e = Exit 1 /\ forall evs', dev_command w lv manifest output evs' d = Over d' e l) \/ e = Exit 101 \/ e = Runs.
Proof. exact dev_ends. Qed.
Print Assumptions C92_errors.

(** A page, a mistake in it, an event about the output, the mistake corrected. *)
Example C92_write (p : path) (s : string) (d : ent) : ent := update p (Some (EFile (enc (lit s)))) d.
Example C92_root : path := [lit "content"; lit "root.html"].
Example C92_edit (s : string) : event := Event (C92_write C92_root s) (Some C92_root).
Example C92_page (x : server) : kind := what [lit "dist"; lit "a"; lit "index.html"] (disk_of x).
Example C92_run (evs : list event) : server := dev_command C76_world Normal (lit "stuart.toml") (lit "dist") evs (C76_disk "x").
Example C92_case : let no := C92_edit "{{ nope() }}" in let yes := C92_edit "y" in let own := Event (fun d => d) (Some [lit "dist"; lit "a"]) in
  C92_page (C92_run []) = KFile (enc (lit "x")) /\
  C92_page (C92_run [no]) = KFile (enc (lit "x")) /\ reported (shown_of (C92_run [no])) = true /\ reloads_of (C92_run [no]) = 0 /\
  C92_page (C92_run [no; own; yes]) = KFile (enc (lit "y")) /\ reloads_of (C92_run [no; own; yes]) = 1 /\ ended (C92_run [no; own; yes]) = None.
Proof. vm_compute. repeat split; reflexivity. Qed.
(** A project that is not in order when the server starts, and is put in order. *)
Example C92_disk (content : ent) : ent := EDir [(lit "w", EDir [(lit "site", EDir [(lit "stuart.toml", EFile []);
  (lit "content", content); (lit "static", fresh_static [137%N])])])].
Example C92_put (d : ent) : ent := update [lit "w"; lit "site"; lit "content"] (Some fresh_content) d.
Example C92_there : world := cd [lit "w"] C76_world.
Example C92_repaired : exists s s' bad, dev_command C92_there Normal (lit "site/stuart.toml") (lit "../out") [] (C92_disk bad) = Waiting s /\
  reported (ss_shown s) = true /\ what [lit "w"; lit "out"] (ss_disk s) = KNone /\
  dev_command C92_there Normal (lit "site/stuart.toml") (lit "../out") [Event C92_put (Some [lit "w"; lit "site"; lit "content"; lit "root.html"])] (C92_disk bad) = Waiting s' /\
  (forall q o, what ([lit "w"; lit "out"] ++ q) (ss_disk s') = KFile o <-> In (q, o) (fresh_files [137%N])) /\ ss_reloads s' = 1.
Proof.
  assert (E : dev_command C92_there Normal (lit "site/stuart.toml") (lit "../out") [] (C92_disk (EFile [])) = Waiting (match dev_command C92_there Normal (lit "site/stuart.toml") (lit "../out") [] (C92_disk (EFile [])) with Waiting s => s | _ => Session (init (RawConfig [] None None) [] [] [] [] (EDir [])) (EDir []) 0 [] 0 end)) by (vm_compute; reflexivity).
  set (s := match dev_command _ _ _ _ _ _ with Waiting s => s | _ => _ end) in E. assert (D : C92_put (ss_disk s) = C92_disk fresh_content) by (vm_compute; reflexivity).
  destruct (C92_published_partial C92_there Normal (lit "site/stuart.toml") (lit "../out") [] (C92_disk (EFile [])) s C92_put [lit "content"; lit "root.html"] [lit "w"; lit "site"] (lit "stuart.toml")
    (RawConfig (lit "s") None None) [] (C92_disk (EFile [])) [] fresh_content (fresh_static [137%N]) [lit "w"; lit "out"]) as (s' & R & F & L); try reflexivity; try exact E.
  - repeat split; reflexivity.
  - now apply join_meant.
  - exists [], []. repeat split; constructor.
  - constructor.
  - now apply rebuilds_kept.
  - rewrite D. exists [], []. repeat split; constructor.
  - constructor.
  - now apply join_meant.
  - rewrite D. do 4 (split; [reflexivity|]). split; [now left|]. split; [reflexivity|].
    split; [repeat first [apply ed_file|apply ed_dir|constructor]; vm_compute; intuition discriminate|].
    split; [intros e K; vm_compute in K; injection K as <-; repeat first [constructor|discriminate|now vm_compute; intuition discriminate]|].
    split; [intros e K; vm_compute in K; injection K as <-; repeat first [constructor|discriminate|now vm_compute; intuition discriminate]|].
    split; [discriminate|]. split; [reflexivity|]. split; [now left|]. split; [apply fresh_in_order|].
    split; [split; [eexists; reflexivity|intros ks A; apply static_entries in A; intuition discriminate]|]. split; [apply fresh_no_conflict|apply fresh_no_overlap].
  - exists s, s', (EFile []). split; [exact E|]. split; [vm_compute; reflexivity|]. split; [vm_compute; reflexivity|]. split; [exact R|]. split; [|rewrite L; vm_compute; reflexivity].
    intros q o. rewrite (F q o). apply fresh_file_at.
Qed.

(** A script that is added while the server runs is not run. *)
Example C92_world : world := with_scripts (fun _ _ d => (C92_write [lit "content"; lit "a.html"] "{{ }}" d, ScriptOk)) C76_world.
Theorem C92_scripts_refuted : exists w lv manifest output d s g p dir name r, meant (w_cwd w) manifest (dir ++ [name]) /\
  manifest_says w (dir ++ [name]) d r [] /\ dev_command w lv manifest output [] d = Waiting s /\ manifest_says w (dir ++ [name]) (g (ss_disk s)) r [] /\ ~ passed p /\
  reported (shown_of (dev_command w lv manifest output [Event g (Some (dir ++ p))] d)) = false /\
  reported (shown_of (dev_command w lv manifest output [] (g (ss_disk s)))) = true.
Proof.
  exists C92_world, Normal, (lit "stuart.toml"), (lit "dist"), (C76_disk "x"). eexists.
  exists (fun d => update [lit "scripts"] (Some (EDir [(lit "onPreBuild.sh", EFile [])])) d), [lit "scripts"; lit "onPreBuild.sh"], [], (lit "stuart.toml").
  eexists. split; [now apply join_meant|]. split; [exists [], []; split; [reflexivity|split; [constructor|reflexivity]]|]. split; [vm_compute; reflexivity|].
  split; [exists [], []; split; [vm_compute; reflexivity|split; [constructor|reflexivity]]|]. split; [now apply rebuilds_kept|]. split; vm_compute; reflexivity.
Qed.
Print Assumptions C92_scripts_refuted.
(** A change of the manifest has no effect until the server is started again. *)
Example C92_toml : world := World (w_host C76_world) (w_ser C76_world) [] (w_scripts C76_world)
  (fun t => TomlOk (RawConfig (lit "s") None (Some (Settings (Some (match t with [] => true | _ => false end)) None None))) [])
  no_loader (fun _ _ => None) (fun _ => no_faults) (fun _ => None) (EDir []) no_user None None [].
Theorem C92_manifest_refuted : exists w lv manifest output d s g p dir name r r', meant (w_cwd w) manifest (dir ++ [name]) /\
  manifest_says w (dir ++ [name]) d r [] /\ dev_command w lv manifest output [] d = Waiting s /\ manifest_says w (dir ++ [name]) (g (ss_disk s)) r' [] /\ ~ passed p /\
  let x := dev_command w lv manifest output [Event g (Some (dir ++ p))] d in let y := dev_command w lv manifest output [] (g (ss_disk s)) in
  ended x = None /\ ended y = None /\ what [lit "dist"; lit "a.html"] (disk_of x) = KNone /\ what [lit "dist"; lit "a.html"] (disk_of y) = KFile (enc (lit "x")).
Proof.
  exists C92_toml, Normal, (lit "stuart.toml"), (lit "dist"), (C76_disk "x"). eexists.
  exists (C92_write [lit "stuart.toml"] " "), C92_root, [], (lit "stuart.toml"). do 2 eexists.
  split; [now apply join_meant|]. split; [exists [], []; split; [reflexivity|split; [constructor|reflexivity]]|]. split; [vm_compute; reflexivity|].
  split; [exists (enc (lit " ")), (lit " "); split; [vm_compute; reflexivity|split; [apply Utf8Facts.decoding; reflexivity|reflexivity]]|]. split; [now apply rebuilds_kept|]. vm_compute. repeat split; reflexivity.
Qed.
Print Assumptions C92_manifest_refuted.
(** Pages that make a build panic end the server: here one saved with an open quote at its end. *)
Theorem C92_panic_refuted : exists w lv manifest output d s g p dir name r, meant (w_cwd w) manifest (dir ++ [name]) /\
  manifest_says w (dir ++ [name]) d r [] /\ dev_command w lv manifest output [] d = Waiting s /\ manifest_says w (dir ++ [name]) (g (ss_disk s)) r [] /\ ~ passed p /\
  ended (dev_command w lv manifest output [Event g (Some (dir ++ p))] d) = Some (Exit 101).
Proof.
  exists C76_world, Normal, (lit "stuart.toml"), (lit "dist"), (C76_disk "x"). eexists.
  exists (C92_write C92_root "{{ for("" "), C92_root, [], (lit "stuart.toml").
  eexists. split; [now apply join_meant|]. split; [exists [], []; split; [reflexivity|split; [constructor|reflexivity]]|]. split; [vm_compute; reflexivity|].
  split; [exists [], []; split; [vm_compute; reflexivity|split; [constructor|reflexivity]]|]. split; [now apply rebuilds_kept|]. vm_compute. reflexivity.
Qed.
Print Assumptions C92_panic_refuted.
