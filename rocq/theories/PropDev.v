(** PropDev.v -- properties C50 to C53, C58 and C64: the development server and error reports. *)

From Coq Require Import String List NArith ZArith Bool Lia Permutation.
From Verif Require Import Text Utf8 Json Base Syntax Parse Tree Interp Build Disk Cli Dev SpecScope SpecTemplate SpecLocation SpecTree SpecDisk SpecProject SpecMarkdown SpecDev.
From Verif Require Import MarkdownFacts DevFacts MarkerFacts.
Import ListNotations.

(** ** C50 *)
(** A change made during a build is lost when its event arrives before the end of the build: everything is
    quiet, every build succeeds and causes no event, and the published site is not that of the sources. *)
Theorem C50_drained_refuted : exists (result : nat -> outcome) own l d, (forall s, result s = Built) /\ own_passed own /\
  (forall p, In (LEdit p) l -> ~ passed p) /\ dev_run result own l (dev_init 0) d /\ quiet d /\
  dv_src d = 2 /\ dv_pub d = Some 1.
Proof.
  exists (fun _ => Built), (fun _ => []), [LOther; LEdit [lit "content"; lit "a.html"]; LOther; LBuild false; LEdit [lit "content"; lit "a.html"]; LOther; LOther; LOther], (Dev 2 [] [] Idle (Some 1)).
  split; [reflexivity|]. split; [intros s p []|]. split; [intros p I; cbn in I; intuition; try discriminate; match goal with H : LEdit _ = LEdit _ |- _ => injection H as <- end; match goal with H : passed _ |- _ => apply rebuilds_passed in H; discriminate H end|].
  split; [|repeat split; reflexivity].
  eapply dr_cons; [eapply step_boot; reflexivity|]. eapply dr_cons; [apply step_edit with (s' := 1)|]. eapply dr_cons; [apply step_deliver|].
  eapply dr_cons; [apply step_start; reflexivity|]. eapply dr_cons; [apply step_edit with (s' := 2)|]. cbn [map app edit_events].
  eapply dr_cons; [apply step_deliver|]. eapply dr_cons; [eapply step_finish; reflexivity|]. eapply dr_cons; [apply step_drain|]. constructor.
Qed.
Print Assumptions C50_drained_refuted.
(** A change made during the first build has no event. *)
Theorem C50_first_refuted : exists (result : nat -> outcome) own l d, (forall s, result s = Built) /\ own_passed own /\
  (forall p, In (LEdit p) l -> ~ passed p) /\ dev_run result own l (dev_init 0) d /\ quiet d /\
  dv_src d = 1 /\ dv_pub d = Some 0.
Proof.
  exists (fun _ => Built), (fun _ => []), [LEdit [lit "content"; lit "a.html"]; LOther], (Dev 1 [] [] Idle (Some 0)).
  split; [reflexivity|]. split; [intros s p []|]. split; [intros p I; cbn in I; intuition; try discriminate; match goal with H : LEdit _ = LEdit _ |- _ => injection H as <- end; match goal with H : passed _ |- _ => apply rebuilds_passed in H; discriminate H end|].
  split; [|repeat split; reflexivity].
  eapply dr_cons; [apply step_edit with (s' := 1)|]. cbn [edit_events app]. eapply dr_cons; [eapply step_boot; reflexivity|]. constructor.
Qed.
Print Assumptions C50_first_refuted.
(** Changes of files called [stuart.toml] are passed over, even in the static directory. *)
Theorem C50_name_refuted : passed [lit "static"; lit "stuart.toml"] /\
  exists (result : nat -> outcome) own l d, (forall s, result s = Built) /\ own_passed own /\
  l = [LOther; LEdit [lit "static"; lit "stuart.toml"]; LOther; LOther] /\ dev_run result own l (dev_init 0) d /\ quiet d /\
  dv_src d = 1 /\ dv_pub d = Some 0.
Proof.
  split; [apply (pd_manifest [lit "static"])|]. exists (fun _ => Built), (fun _ => []). eexists. exists (Dev 1 [] [] Idle (Some 0)). split; [reflexivity|]. split; [intros s p []|]. split; [reflexivity|].
  split; [|repeat split; reflexivity].
  eapply dr_cons; [eapply step_boot; reflexivity|]. eapply dr_cons; [apply step_edit with (s' := 1)|]. cbn [edit_events app]. eapply dr_cons; [apply step_deliver|]. cbn [app].
  eapply dr_cons; [apply step_ignore; reflexivity|]. constructor.
Qed.
Print Assumptions C50_name_refuted.
(** Missing from these: last changes made while a build runs.  When the last change is made between
    builds, the site published in the end is that of the sources, whatever went before. *)
Theorem C50_rebuilt_partial : forall (Src : Type) (result : Src -> outcome) own d0 p d1 l d2,
  dv_phase d0 = Idle -> ~ passed p -> dev_step result own (LEdit p) d0 d1 ->
  Forall no_edit l -> dev_run result own l d1 d2 -> quiet d2 -> result (dv_src d1) = Built ->
  dv_pub d2 = Some (dv_src d1) /\ dv_src d2 = dv_src d1.
Proof. exact @rebuilt. Qed.
Print Assumptions C50_rebuilt_partial.
(** It is enough that its event arrives when no build is running. *)
Theorem C50_late_partial : forall (Src : Type) (result : Src -> outcome) own d l d2,
  dv_phase d = Idle -> awaited d -> Forall no_edit l -> dev_run result own l d d2 -> quiet d2 -> result (dv_src d) = Built ->
  dv_pub d2 = Some (dv_src d) /\ dv_src d2 = dv_src d.
Proof. exact @rebuilt_late. Qed.
Print Assumptions C50_late_partial.
(** At any time the published site is that of the last build that has succeeded: one that fails
    changes nothing. *)
Theorem C50_latest_partial : forall (Src : Type) (result : Src -> outcome) own s l d, starts result own (dev_init s) l d ->
  (~ busy d -> last_success result (s :: l) (dv_pub d)) /\
  (busy d -> exists l' x, s :: l = l' ++ [x] /\ last_success result l' (dv_pub d)).
Proof. exact @latest. Qed.
Print Assumptions C50_latest_partial.
Example C50_broken : exists d, starts (fun s => if Nat.eqb s 1 then Failed else Built) (fun _ => []) (dev_init 0) [1] d /\ ~ busy d /\ dv_pub d = Some 0.
Proof.
  exists (Dev 1 [] [] Draining (Some 0)). split; [|split; [intros [s [E|E]]; discriminate|reflexivity]].
  eapply ss_other; [eapply step_boot; reflexivity|discriminate|]. eapply ss_other; [apply step_edit with (s' := 1) (p := [lit "content"])|discriminate|]. cbn [edit_events app].
  eapply ss_other; [apply step_deliver|discriminate|]. cbn [app]. eapply (ss_build _ _ false); [apply step_start; reflexivity|].
  eapply ss_other; [eapply step_finish; reflexivity|discriminate|]. constructor.
Qed.
Theorem C50_first_partial : forall (Src : Type) (result : Src -> outcome) own s l d,
  Forall no_edit l -> dev_run result own l (dev_init s) d -> quiet d -> result s = Built -> dv_pub d = Some s /\ dv_src d = s.
Proof. exact @booted. Qed.
Print Assumptions C50_first_partial.
(** And the end is reached: until everything is quiet something can happen, and not for ever. *)
Theorem C50_progress_partial : forall (Src : Type) (result : Src -> outcome) own d, alive d -> ~ quiet d -> exists d', moves result own d d'.
Proof. exact @progress. Qed.
Print Assumptions C50_progress_partial.
Theorem C50_terminates_partial : forall (Src : Type) (result : Src -> outcome) own, own_passed own ->
  forall d, Acc (fun d' d => moves result own d d') d.
Proof. exact @terminates. Qed.
Print Assumptions C50_terminates_partial.
Example C50_case : exists d1 l d2, dev_step (fun _ => Built) (fun _ => [[lit "dist"]]) (LEdit [lit "static"; lit "a"]) (Dev 0 [] [] Idle None) d1 /\
  Forall no_edit l /\ dev_run (fun _ => Built) (fun _ => [[lit "dist"]]) l d1 d2 /\ quiet d2 /\ dv_src d1 = 1 /\ dv_pub d2 = Some 1 /\ builds l = 1.
Proof.
  eexists. exists [LOther; LBuild false; LOther; LOther; LOther; LOther], (Dev 1 [] [] Idle (Some 1)). split; [apply step_edit with (s' := 1)|]. split; [repeat constructor; discriminate|].
  split; [|repeat split; reflexivity]. cbn [edit_events app].
  eapply dr_cons; [apply step_deliver|]. eapply dr_cons; [apply step_start; reflexivity|]. eapply dr_cons; [eapply step_finish; reflexivity|]. cbn [map app].
  eapply dr_cons; [apply step_drain|]. eapply dr_cons; [apply step_deliver|]. cbn [app]. eapply dr_cons; [apply step_ignore; reflexivity|]. constructor.
Qed.

(** ** C51 *)
Example machine0 : machine :=
  Machine (Host (fun _ => false) (fun t => t) None (fun _ => Some VNull)) (fun _ => []) [] (fun _ d => (d, ScriptOk)).
Example project (output : string) (meta : bool) : context :=
  Context (stuart_new (Config (lit "n") None true false meta) []) [] [] (lit "development") [lit "p"] (lit output).
Example disk : ent := EDir [(lit "p", EDir [(lit "stuart.toml", EFile []); (lit "content", EDir [])])].
(** Every build that causes an event about such a path can be followed by any number of builds without
    a change by the user. *)
Theorem C51_endless : forall (Src : Type) (result : Src -> outcome) own s p p0, In p (own s) -> ~ passed p -> ~ passed p0 -> result s <> Died ->
  forall n, exists l d, dev_run result own l (Dev s [] [(false, p0)] Idle None) d /\ Forall no_edit l /\ builds l = n.
Proof. exact @endless. Qed.
Print Assumptions C51_endless.
(** With metadata, or another output directory than [dist], builds go on for ever after one change. *)
Theorem C51_metadata_refuted : exists m c d r, In (cx_dir c ++ r) (build_paths m c d) /\
  forall n, exists l d', dev_run (fun _ => Built) (fun _ => [r]) l (Dev d [] [(false, [lit "content"; lit "a.html"])] Idle None) d' /\
    Forall no_edit l /\ builds l = n.
Proof.
  exists machine0, (project "dist" true), disk, [lit "metadata.json"]. split; [vm_compute; tauto|].
  apply (endless (fun _ => Built) (fun _ => [[lit "metadata.json"]]) disk [lit "metadata.json"]); [now left|now apply rebuilds_kept|now apply rebuilds_kept|discriminate].
Qed.
Print Assumptions C51_metadata_refuted.
Theorem C51_output_refuted : exists m c d r, In (cx_dir c ++ r) (build_paths m c d) /\
  forall n, exists l d', dev_run (fun _ => Built) (fun _ => [r]) l (Dev d [] [(false, [lit "content"; lit "a.html"])] Idle None) d' /\
    Forall no_edit l /\ builds l = n.
Proof.
  exists machine0, (project "public" false), disk, [lit "public"]. split; [vm_compute; tauto|].
  apply (endless (fun _ => Built) (fun _ => [[lit "public"]]) disk [lit "public"]); [now left|now apply rebuilds_kept|now apply rebuilds_kept|discriminate].
Qed.
Print Assumptions C51_output_refuted.
(** Without scripts a build changes nothing but its paths and what is below. *)
Theorem C51_paths_partial : forall m f c d q, cx_pre c = [] -> cx_post c = [] -> (forall p, In p (build_paths m c d) -> ~ above p q) ->
  what q (snd (fst (cli_build m f c d))) = what q d.
Proof. exact build_touches. Qed.
Print Assumptions C51_paths_partial.
(** With the output directory [dist] and without metadata all events about these are passed over. *)
Theorem C51_passed_partial : forall m c d p r, inward_project c d -> output_dir c = cx_dir c ++ [lit "dist"] -> cf_meta (st_config (cx_stuart c)) = false ->
  In p (build_paths m c d) -> above p (cx_dir c ++ r) -> passed r.
Proof. exact own_ignored. Qed.
Print Assumptions C51_passed_partial.
(** Then no build starts because of another one, and there are not more builds than changes. *)
Theorem C51_never_partial : forall (Src : Type) (result : Src -> outcome) own s l d, own_passed own -> dev_run result own l (dev_init s) d -> ~ In (LBuild true) l.
Proof. exact @never_own. Qed.
Print Assumptions C51_never_partial.
Theorem C51_count_partial : forall (Src : Type) (result : Src -> outcome) own s l d, own_passed own -> dev_run result own l (dev_init s) d -> builds l <= edits l.
Proof. exact @builds_by_edits. Qed.
Print Assumptions C51_count_partial.
Example C51_case : build_paths machine0 (project "dist" false) disk = [[lit "p"; lit "temp"]; [lit "p"; lit "dist"]; [lit "p"; lit "dist"]] /\
  inward_project (project "dist" false) disk /\ output_dir (project "dist" false) = [lit "p"; lit "dist"].
Proof.
  split; [vm_compute; reflexivity|]. split; [|reflexivity]. repeat split; intros e E; vm_compute in E; try discriminate E. injection E as <-. constructor. constructor.
Qed.

(** ** C52 *)
Theorem C52_kept : forall (A : Type) (fails : A -> bool) l, Permutation (broadcast fails l) (filter (fun x => negb (fails x)) l).
Proof. exact @broadcast_kept. Qed.
Print Assumptions C52_kept.
Example C52_case : broadcast Nat.even [0; 1; 2; 3; 4; 5; 7] = [7; 1; 5; 3].
Proof. reflexivity. Qed.

(** ** C53 *)
Theorem C53_unchanged : forall js b, (forall a c, b <> a ++ lit "</body>" ++ c) -> inject js b = b.
Proof. exact inject_none. Qed.
Print Assumptions C53_unchanged.
Theorem C53_inserted : forall js a c b, first_occurrence (lit "</body>") a c b ->
  inject js b = a ++ (lit "<script>" ++ js ++ lit "</script>") ++ lit "</body>" ++ c.
Proof. exact inject_first. Qed.
Print Assumptions C53_inserted.
Example C53_case : inject (lit "J") (lit "<body>x</body></body>") = lit "<body>x<script>J</script></body></body>" /\ inject (lit "J") (lit "x</body") = lit "x</body".
Proof. split; vm_compute; reflexivity. Qed.

(** ** C58 *)
(** [checked] is a program compiled with overflow checks: errors without a line are not printed at all. *)
Theorem C58_line0_refuted : exists file msg help s, report true file 0 0 msg help (Some s) = Panic Pn_line.
Proof. exists (lit "root.html"), [], None, (lit "x"). reflexivity. Qed.
Print Assumptions C58_line0_refuted.
Theorem C58_preview : forall checked file line col msg help s ls l, text_lines ls s -> (0 < line)%N -> nth_error ls (N.to_nat (line - 1)) = Some l ->
  exists rep, report checked file line col msg help (Some s) = Ok rep /\ with_preview file line col msg help l (N.to_nat col - 2) rep.
Proof. exact report_preview. Qed.
Print Assumptions C58_preview.
Theorem C58_beyond : forall checked file line col msg help s ls, text_lines ls s -> (0 < line)%N -> nth_error ls (N.to_nat (line - 1)) = None ->
  exists rep, report checked file line col msg help (Some s) = Ok rep /\ without_preview file line col msg help rep.
Proof. exact report_beyond. Qed.
Print Assumptions C58_beyond.
(** Missing: line 0 with overflow checks. *)
Theorem C58_plain_partial : forall checked file line col msg help contents, contents = None \/ (checked = false /\ line = 0%N) ->
  exists rep, report checked file line col msg help contents = Ok rep /\ without_preview file line col msg help rep.
Proof. exact report_plain. Qed.
Print Assumptions C58_plain_partial.
Example C58_case : text_lines [lit "one"; lit "two"] (lit "one" ++ [13; 10]%N ++ lit "two") /\
  report false (lit "a.html") 2 4 [lit "error"] (Some (lit "fix it")) (Some (lit "one" ++ [13; 10]%N ++ lit "two")) =
    Ok [lit "error"; lit "  --> a.html:2:4"; lit "  |"; lit "2 | two"; lit "  |   ^^^ error occurred here"; lit "  |"; lit "  = help: fix it"].
Proof. split; [exact (lines_spec (lit "one" ++ [13; 10]%N ++ lit "two"))|vm_compute; reflexivity]. Qed.

(** ** C64 *)
(** In a markdown file with front matter the report shows another line. *)
Theorem C64_markdown_refuted : exists input e rep, usual_ends input /\ (forall a b, input = a ++ open_tag ++ b -> newlines a = 3%N) /\
  parse_markdown (fun _ => false) [] [] input = Err e /\ report false (lit "a.md") (tb_line e) (tb_col e) [lit "error"] None (Some input) = Ok rep /\
  with_preview (lit "a.md") (tb_line e) (tb_col e) [lit "error"] None (lit "---") 1 rep.
Proof. exact markdown_marker. Qed.
Print Assumptions C64_markdown_refuted.
(** Missing: markdown files with front matter.  A parse error in a template is shown with the line it is in
    and a marker that covers the last character read when it was found (see C60). *)
Theorem C64_parse_partial : forall ext plugins file input e, parse_html ext plugins file input = Err e -> usual_ends input ->
  exists a src seen left q c, input = (q ++ [c]) ++ left /\ q ++ [c] = a ++ src ++ open_tag ++ seen /\ tagged ext a /\ mistake ext plugins seen left (tb_kind e) /\
  forall checked fname msg help, exists rep, report checked fname (tb_line e) (tb_col e) msg help (Some input) = Ok rep /\ marks input q fname msg help rep.
Proof. exact parse_marked. Qed.
Print Assumptions C64_parse_partial.
(** An error located at a tag (see C33) is shown with the line the tag starts in, and the marker covers the
    character before the first of its content. *)
Theorem C64_tag_partial : forall ext plugins file input toks k loc, parse_html ext plugins file input = Ok toks -> In (LTok k loc) toks -> is_tag k -> usual_ends input ->
  exists q c, tag_at ext input k (q ++ [c]) /\
  forall checked fname msg help, exists rep, report checked fname (l_line loc) (l_col loc) msg help (Some input) = Ok rep /\ marks input q fname msg help rep.
Proof. exact tag_marked. Qed.
Print Assumptions C64_tag_partial.
Example C64_text : text := lit "a" ++ [c_cr; c_lf] ++ lit "some {{ nope() }}" ++ [c_cr; c_lf].
Example C64_case : usual_ends C64_text /\ exists e, parse_html (fun _ => false) [] [] C64_text = Err e /\
  report false (lit "a.html") (tb_line e) (tb_col e) [lit "error"] None (Some C64_text) =
    Ok [lit "error"; lit "  --> a.html:2:7"; lit "  |"; lit "2 | some {{ nope() }}"; lit "  |      ^^^ error occurred here"; lit "  |"].
Proof.
  split; [|eexists; split; vm_compute; reflexivity].
  intros a b E. do 30 (destruct a as [|? a]; [first [discriminate E|injection E as E; subst; now eexists]|]; first [discriminate E|injection E as _ E]).
Qed.
