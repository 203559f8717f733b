(** PropStateCli.v -- commands with plugins that keep state (C96, C66, C67, C72, C88, C92, C94, C95). *)

From Coq Require Import String List NArith ZArith Bool.
From Verif Require Import Text Utf8 Json Base Syntax Parse Tree Interp Build Disk Cli Load Dev New Report Main Server Js State StateCli SpecTree SpecSite SpecLocal SpecNeeds SpecDisk SpecProject SpecDev SpecServer SpecState.
From Verif Require Import NewFacts MainFacts StateFacts StateCliFacts.
Import ListNotations.

(** ** C96 *)
(** Where the answers of the functions do not depend on what is kept, the commands do what they do with
    functions without state. *)
Theorem C96_commands {X} (beh : State.behaviour X) : forall m x,
  (forall f c d, plugins_give (fun p => forall l s x, snd (beh p l s x) = pf_exec p l s) (st_plugins (cx_stuart c)) ->
     snd (scli_build beh m f c d x) = cli_build m f c d) /\
  (forall fs iters r ps dir d, plugins_give (fun p => forall l s x, snd (beh p l s x) = pf_exec p l s) ps ->
     snd (sbench beh m fs iters r ps dir d x) = bench m fs iters r ps dir d).
Proof. exact (fun m x => conj (fun f c d => scli_plain beh m f c d x) (fun fs iters r ps dir d => sbench_plain beh m fs iters r ps dir d x)). Qed.
Print Assumptions C96_commands.
(** [stuart build] and [stuart dev] as programs. *)
Theorem C96_programs {X} (beh : State.behaviour X) : forall w lv manifest output evs d x,
  (forall mode d1 c said, start w manifest output mode d = (d1, SOk c, said) ->
     plugins_give (fun p => forall l s x, snd (beh p l s x) = pf_exec p l s) (st_plugins (cx_stuart c))) ->
  snd (sbuild_command beh w manifest output d x) = build_command w manifest output d /\
  snd (sdev_command beh w lv manifest output evs d x) = dev_command w lv manifest output evs d.
Proof. exact (fun w lv manifest output evs d x H => conj (scommand_plain beh w manifest output d x (H (lit "production"))) (sdev_plain beh w lv manifest output evs d x (H (lit "development")))). Qed.
Print Assumptions C96_programs.

(** Whole commands: one plugin's module never sees another's, and what it keeps is what its own calls, one after
    the other, leave, through all builds, those that fail too. *)
Theorem C96_isolated_commands {Y} (code : N -> text -> option (sjs_code Y)) :
  (forall m f c d, call_by_call code (fun X beh => scli_build beh m f c d)) /\
  (forall m fs iters r ps dir d, call_by_call code (fun X beh => sbench beh m fs iters r ps dir d)) /\
  (forall w manifest output d, call_by_call code (fun X beh => sbuild_command beh w manifest output d)) /\
  (forall w lv manifest output evs d, call_by_call code (fun X beh => sdev_command beh w lv manifest output evs d)).
Proof. exact (commands_calls code). Qed.
Print Assumptions C96_isolated_commands.

(** A counter on the page. *)
Definition C67_code (c : N) (f : text) : option (sjs_code N) :=
  if text_eqb f (lit "inc") then Some (fun n _ => SReturn (n + 1)%N (Some (show_N n))) else None.
Definition C67_counter : list plugin := [sjs_plugin 0 (lit "a") [lit "inc"]].
Definition C67_machine : machine :=
  Machine (Host (fun _ => false) (fun t => t) None (fun _ => Some VNull)) (fun _ => []) [] (fun _ d => (d, ScriptOk)).
Definition C67_disk : ent := EDir [(lit "p", EDir
  [(lit "stuart.toml", EFile []);
   (lit "content", EDir [(lit "root.html", EFile (lit "{{ insert(""b"") }}"));
                         (lit "index.html", EFile (lit "{{ begin(""b"") }}{{ a::inc() }}{{ end(""b"") }}"))])])].
Definition C67_manifest : raw_config := RawConfig (lit "n") None None.
Definition C67_page : path := [lit "p"; lit "dist"; lit "index.html"].

(** ** C66 *)
(** Building again in the same process changes the page. *)
Theorem C66_state_refuted : exists (code : N -> text -> option (sjs_code N)) m c d x x1 c1 d1 x2 c2 d2 q,
  scli_build (js_behaviour code) m no_faults c d x = (x1, (c1, d1, COk)) /\ idle_scripts m c /\
  lookup (cx_dir c ++ [lit "temp"]) d = None /\
  scli_build (js_behaviour code) m no_faults c1 d1 x1 = (x2, (c2, d2, COk)) /\ what q d2 <> what q d1.
Proof.
  exists C67_code, C67_machine, (init C67_manifest C67_counter [lit "p"] (lit "dist") (lit "production") C67_disk), C67_disk, (fun _ => 0%N).
  do 6 eexists. exists C67_page. split; [vm_compute; reflexivity|]. split; [now intros n d _|]. split; [reflexivity|].
  split; [vm_compute; reflexivity|]. vm_compute. discriminate.
Qed.
Print Assumptions C66_state_refuted.

(** ** C67 *)
(** Two iterations leave another page than one. *)
Theorem C67_state_refuted : exists (code : N -> text -> option (sjs_code N)) m r0 ps dir d x x1 d1 x2 d2 q,
  sbench (js_behaviour code) m (fun _ => no_faults) (lit "1") r0 ps dir d x = (x1, (d1, COk)) /\
  sbench (js_behaviour code) m (fun _ => no_faults) (lit "2") r0 ps dir d x = (x2, (d2, COk)) /\ what q d2 <> what q d1.
Proof.
  exists C67_code, C67_machine, C67_manifest, C67_counter, [lit "p"], C67_disk, (fun _ => 0%N).
  do 4 eexists. exists C67_page. split; [vm_compute; reflexivity|]. split; [vm_compute; reflexivity|]. vm_compute. discriminate.
Qed.
Print Assumptions C67_state_refuted.

(** ** C88 *)
(** A page that counts, without [import] and [for], changes when another page that counts is added. *)
Definition C88_counting : bytes := lit "{{ begin(""b"") }}{{ a::inc() }}{{ end(""b"") }}".
Definition C88_counts (o : option bytes) : source_dir :=
  SourceDir [lit "c"] (lit "c") (Some (EDir ([(lit "root.html", EFile (lit "{{ insert(""b"") }}"))] ++ maybe_file (lit "y.html") o ++ [(lit "z.html", EFile C88_counting)]))).
Definition C88_output (o : option bytes) : node :=
  match st_output (fst (snd (sbuild (js_behaviour C67_code) (m_host C67_machine) [] [] (C88_counts o) (stuart_new config_default C67_counter) (fun _ => 0%N)))) with
  | Some n => n | None => NDir [] [] [] end.
Theorem C88_state_refuted : exists (code : N -> text -> option (sjs_code N)) h osenv mode b x d d' e e' out out' nm o,
  snd (snd (sbuild (js_behaviour code) h osenv mode d b x)) = Ok tt /\ st_output (fst (snd (sbuild (js_behaviour code) h osenv mode d b x))) = Some out /\ sd_ent d = Some e /\
  snd (snd (sbuild (js_behaviour code) h osenv mode d' b x)) = Ok tt /\ st_output (fst (snd (sbuild (js_behaviour code) h osenv mode d' b x))) = Some out' /\ sd_ent d' = Some e' /\
  changed [] (lit "y.html") e e' /\ ent_at e [lit "z.html"] (EFile C88_counting) /\
  page_from out [] (sd_path d ++ [lit "z.html"]) nm o /\ ~ page_from out' [] (sd_path d ++ [lit "z.html"]) nm o.
Proof.
  exists C67_code, (m_host C67_machine), [], [], (stuart_new config_default C67_counter), (fun _ => 0%N), (C88_counts None), (C88_counts (Some C88_counting)).
  do 2 eexists. exists (C88_output None), (C88_output (Some C88_counting)), (lit "z.html"), (enc (lit "0")).
  split; [vm_compute; reflexivity|]. split; [vm_compute; reflexivity|]. split; [reflexivity|]. split; [vm_compute; reflexivity|]. split; [vm_compute; reflexivity|].
  split; [reflexivity|]. split; [apply (cg_here _ None (Some C88_counting) [_] [_]); vm_compute; intuition discriminate|].
  split; [eapply ea_child; [right; left; reflexivity|constructor]|]. split.
  - exists PNone, None. set (n := NFile _ _ _ _ _). change ([] ++ [lit "z.html"]) with [n_name n]. assert (E : C88_output None = NDir (n_name (C88_output None)) [match n_children (C88_output None) with Some (r :: _) => r | _ => n end; n] (n_source (C88_output None))) by (vm_compute; reflexivity). rewrite E. econstructor; [right; left; reflexivity|constructor].
  - intros (p & meta & A). vm_compute in A. inversion A as [|? ? ? n ? ? I A1]; subst. inversion A1; subst.
    match goal with E : n = NFile _ _ _ _ _ |- _ => rewrite E in I end. cbn in I. repeat (destruct I as [I|I]; [inversion I; congruence|]). exact I.
Qed.
Print Assumptions C88_state_refuted.

(** ** C72 *)
(** Editing a page that counts changes another page that counts. *)
Theorem C72_state_refuted : exists (code : N -> text -> option (sjs_code N)) h osenv mode b x d d' e e' out out' nm o,
  snd (snd (sbuild (js_behaviour code) h osenv mode d b x)) = Ok tt /\ st_output (fst (snd (sbuild (js_behaviour code) h osenv mode d b x))) = Some out /\ sd_ent d = Some e /\
  snd (snd (sbuild (js_behaviour code) h osenv mode d' b x)) = Ok tt /\ st_output (fst (snd (sbuild (js_behaviour code) h osenv mode d' b x))) = Some out' /\ sd_ent d' = Some e' /\
  edited [] (lit "y.html") e e' /\ ent_at e [lit "z.html"] (EFile C88_counting) /\
  page_from out [] (sd_path d ++ [lit "z.html"]) nm o /\ ~ page_from out' [] (sd_path d ++ [lit "z.html"]) nm o.
Proof.
  exists C67_code, (m_host C67_machine), [], [], (stuart_new config_default C67_counter), (fun _ => 0%N), (C88_counts (Some (lit "{{ begin(""b"") }}{{ end(""b"") }}"))), (C88_counts (Some C88_counting)).
  do 2 eexists. exists (C88_output (Some (lit "{{ begin(""b"") }}{{ end(""b"") }}"))), (C88_output (Some C88_counting)), (lit "z.html"), (enc (lit "0")).
  split; [vm_compute; reflexivity|]. split; [vm_compute; reflexivity|]. split; [reflexivity|]. split; [vm_compute; reflexivity|]. split; [vm_compute; reflexivity|].
  split; [reflexivity|]. split; [apply (ed_here (lit "y.html") (lit "{{ begin(""b"") }}{{ end(""b"") }}") C88_counting [_] [_])|].
  split; [eapply ea_child; [do 2 right; left; reflexivity|constructor]|]. split.
  - exists PNone, None. set (n := NFile _ _ _ _ _). change ([] ++ [lit "z.html"]) with [n_name n].
    set (t := C88_output _). assert (E : t = NDir (n_name t) (match n_children t with Some (r :: y :: _) => [r; y; n] | _ => [] end) (n_source t)) by (vm_compute; reflexivity).
    rewrite E. econstructor; [|constructor]. vm_compute. do 2 right. left. reflexivity.
  - intros (p & meta & A). vm_compute in A. inversion A as [|? ? ? n ? ? I A1]; subst. inversion A1; subst.
    match goal with E : n = NFile _ _ _ _ _ |- _ => rewrite E in I end. cbn in I. repeat (destruct I as [I|I]; [inversion I; congruence|]). exact I.
Qed.
Print Assumptions C72_state_refuted.

(** ** C92 *)
(** A server that has built the page once shows another page after the next event than a new server. *)
Definition C92_loader : loader := Loader true (fun _ => false) (fun _ _ d => (d, false)) (fun _ d => (d, false)) (fun _ => None) (fun _ => None)
  (fun _ d => (d, false)) (fun _ _ => None) (fun _ _ => Ok (sjs_plugin 0 (lit "a") [lit "inc"])).
Definition C92_counters : world := World (m_host C67_machine) (fun _ => []) [] (fun _ _ d => (d, ScriptOk))
  (fun _ => TomlOk (RawConfig (lit "s") None None) [(lit "a", lit "p.js")]) C92_loader (fun _ _ => None) (fun _ => no_faults) (fun _ => None)
  (EDir []) no_user None None [].
Definition C92_site : ent := EDir [(lit "stuart.toml", EFile []); (lit "p.js", EFile []);
  (lit "content", EDir [(lit "root.html", EFile (lit "{{ insert(""b"") }}")); (lit "z.html", EFile C88_counting)])].
Definition C92_shows (evs : list event) (d : ent) : server :=
  snd (sdev_command (js_behaviour C67_code) C92_counters Normal (lit "stuart.toml") (lit "dist") evs d (fun _ => 0%N)).
Theorem C92_state_refuted : exists (code : N -> text -> option (sjs_code N)) w lv manifest output d x s p q,
  let shows evs d := snd (sdev_command (js_behaviour code) w lv manifest output evs d x) in
  shows [] d = Waiting s /\ ~ passed p /\
  let y := shows [Event (fun e => e) (Some p)] d in let z := shows [] (ss_disk s) in
  ended y = None /\ ended z = None /\ reported (shown_of y) = false /\ reported (shown_of z) = false /\ what q (disk_of y) <> what q (disk_of z).
Proof.
  exists C67_code, C92_counters, Normal, (lit "stuart.toml"), (lit "dist"), C92_site, (fun _ => 0%N).
  exists (match C92_shows [] C92_site with Waiting s => s | _ => Session (init (RawConfig [] None None) [] [] [] [] (EDir [])) (EDir []) 0 [] 0 end).
  exists [lit "content"; lit "z.html"], [lit "dist"; lit "z"; lit "index.html"]. cbv zeta.
  split; [vm_compute; reflexivity|]. split; [now apply DevFacts.rebuilds_kept|]. do 4 (split; [vm_compute; reflexivity|]). vm_compute. discriminate.
Qed.
Print Assumptions C92_state_refuted.

(** A build that fails after a call: the next one counts on. *)
Example C96_isolated_case :
  let page t d := update [lit "content"; lit "z.html"] (Some (EFile (lit t))) d in
  let edit t := Event (page t) (Some [lit "content"; lit "z.html"]) in
  let good := "{{ begin(""b"") }}{{ a::inc() }}{{ end(""b"") }}"%string in
  let bad := "{{ begin(""b"") }}{{ a::inc() }}{{ a::inc() }}{{ $none }}{{ end(""b"") }}"%string in
  let run X beh (x : X) := sdev_command beh C92_counters Normal (lit "stuart.toml") (lit "dist") [edit bad; edit good] C92_site x in
  let r := run _ (recording (js_behaviour C67_code)) (fun _ => 0%N, []) in
  what [lit "dist"; lit "z"; lit "index.html"] (disk_of (snd r)) = KFile (enc (lit "3")) /\
  fst (fst r) 0%N = 4%N /\ length (snd (fst r)) = 4 /\ reported (shown_of (snd r)) = true.
Proof. vm_compute. repeat split. Qed.

(** ** C94 *)
(** Nor does it show what [stuart build] publishes. *)
Theorem C94_state_refuted : exists (code : N -> text -> option (sjs_code N)) w lv manifest output d x s p q d2 said,
  let shows evs d := snd (sdev_command (js_behaviour code) w lv manifest output evs d x) in
  shows [] d = Waiting s /\ ~ passed p /\ ended (shows [Event (fun e => e) (Some p)] d) = None /\
  snd (sbuild_command (js_behaviour code) w manifest output (ss_disk s) x) = (d2, Main.Done, said) /\
  what q (disk_of (shows [Event (fun e => e) (Some p)] d)) <> what q d2.
Proof.
  exists C67_code, C92_counters, Normal, (lit "stuart.toml"), (lit "dist"), C92_site, (fun _ => 0%N).
  exists (match C92_shows [] C92_site with Waiting s => s | _ => Session (init (RawConfig [] None None) [] [] [] [] (EDir [])) (EDir []) 0 [] 0 end).
  exists [lit "content"; lit "z.html"], [lit "dist"; lit "z"; lit "index.html"].
  set (b := snd (sbuild_command (js_behaviour C67_code) C92_counters (lit "stuart.toml") (lit "dist") (ss_disk (match C92_shows [] C92_site with Waiting s => s | _ => Session (init (RawConfig [] None None) [] [] [] [] (EDir [])) (EDir []) 0 [] 0 end)) (fun _ => 0%N))).
  exists (fst (fst b)), (snd b). subst b. cbv zeta.
  split; [vm_compute; reflexivity|]. split; [now apply DevFacts.rebuilds_kept|]. do 2 (split; [vm_compute; reflexivity|]). vm_compute. discriminate.
Qed.
Print Assumptions C94_state_refuted.

(** ** C95 *)
(** After a build of the same process that the disk let down the page is another. *)
Theorem C95_state_refuted : exists (code : N -> text -> option (sjs_code N)) m f c d x x1 c1 d1 x2 c2 d2 e x3 c3 d3 q,
  scli_build (js_behaviour code) m no_faults c d x = (x1, (c1, d1, COk)) /\ idle_scripts m c /\
  scli_build (js_behaviour code) m f c d x = (x2, (c2, d2, CErr e)) /\
  scli_build (js_behaviour code) m no_faults c2 d2 x2 = (x3, (c3, d3, COk)) /\ what q d3 <> what q d1.
Proof.
  exists C67_code, C67_machine, (Faults None (Some (Fault 1 None)) None), (init C67_manifest C67_counter [lit "p"] (lit "dist") (lit "production") C67_disk), C67_disk, (fun _ => 0%N).
  do 10 eexists. exists C67_page. split; [vm_compute; reflexivity|]. split; [now intros n d _|].
  split; [vm_compute; reflexivity|]. split; [vm_compute; reflexivity|]. vm_compute. discriminate.
Qed.
Print Assumptions C95_state_refuted.
