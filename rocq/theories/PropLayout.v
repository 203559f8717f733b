(** PropLayout.v -- property C103: the way tags are written does not matter. *)

From Coq Require Import String List NArith ZArith Bool Permutation.
From Verif Require Import Text Utf8 Json Base Syntax Parse Tree Interp Build Disk Cli Load Report Main Js Shipped.
From Verif Require Import SpecTemplate SpecGrammar SpecUtf8 SpecTree SpecDisk SpecAlike SpecProject SpecMain SpecSays SpecLayout.
From Verif Require Import Utf8Facts TreeFacts GrammarFacts ShapeFacts NewFacts ProgramFacts MainFacts LayoutFacts LayoutCmd.
Import ListNotations.

(** ** C103 *)
(** Of two sites that differ in the way tags are written, both or neither can be built. *)
Theorem C103_builds : forall h osenv mode p name e e' st, unplaced (st_plugins st) -> sources_layout h name e e' ->
  (snd (build h osenv mode (SourceDir p name (Some e)) st) = Ok tt <-> snd (build h osenv mode (SourceDir p name (Some e')) st) = Ok tt).
Proof. exact layout_iff. Qed.
Print Assumptions C103_builds.
(** What comes out is the same. *)
Theorem C103_site : forall h osenv mode p name e e' st out, unplaced (st_plugins st) -> sources_layout h name e e' ->
  snd (build h osenv mode (SourceDir p name (Some e)) st) = Ok tt -> st_output (fst (build h osenv mode (SourceDir p name (Some e)) st)) = Some out ->
  exists out', st_output (fst (build h osenv mode (SourceDir p name (Some e')) st)) = Some out' /\ output_layout out out'.
Proof. exact layout_site. Qed.
Print Assumptions C103_site.
(** What is written to disk is the very same, metadata too, whatever goes wrong while writing. *)
Theorem C103_saved : forall h osenv mode p name e e' st, unplaced (st_plugins st) -> sources_layout h name e e' ->
  snd (build h osenv mode (SourceDir p name (Some e)) st) = Ok tt ->
  let b := fst (build h osenv mode (SourceDir p name (Some e)) st) in let b' := fst (build h osenv mode (SourceDir p name (Some e')) st) in
  forall ser f q d, save f b' q d = save f b q d /\ save_metadata ser f b' q d = save_metadata ser f b q d.
Proof. exact layout_saved. Qed.
Print Assumptions C103_saved.
(** A build that fails fails in the same file with the same kind of error, if every call denotes a
    function. *)
Theorem C103_fails : forall h osenv mode p name e e' st, unplaced (st_plugins st) -> sources_layout h name e e' -> all_known h (st_plugins st) e ->
  both same_failure eq (snd (build h osenv mode (SourceDir p name (Some e)) st)) (snd (build h osenv mode (SourceDir p name (Some e')) st)).
Proof. exact (fun h osenv mode p name e e' st U S K => proj1 (layout_build h osenv mode p name e e' st U S K)). Qed.
Print Assumptions C103_fails.
(** Templates written in different ways have the same tokens. *)
Theorem C103_means : forall ext tbl t t' ks, same_template ext t t' -> (SpecGrammar.means ext tbl t ks <-> SpecGrammar.means ext tbl t' ks).
Proof. exact (fun ext tbl t t' ks S => conj (means_same ext tbl t t' ks S) (means_same ext tbl t' t ks (template_sym ext t t' S))). Qed.
Print Assumptions C103_means.
(** Functions written in JavaScript and the two plugins that come with the program do not look at places. *)
Theorem C103_plugins : forall o ps, (forall pl, In pl ps -> In pl [imgopt o; demo] \/
    (pl_parsers pl = [] /\ forall f, In f (pl_fns pl) -> exists name code, f = js_plugin_parser name code)) -> unplaced ps.
Proof. exact ours_unplaced. Qed.
Print Assumptions C103_plugins.

(** The whole command, [stuart build], in a project without scripts whose plugins are read and not built:
    it succeeds in both cases or in none, and all it leaves is the same but for the files rewritten. *)
Theorem C103_command : forall w lv manifest output dir name r deps ps d d' e e', meant (w_cwd w) manifest (dir ++ [name]) ->
  manifest_says w (dir ++ [name]) d r deps -> name <> lit "content" ->
  loads_all (lo_js (w_loader w)) (load_from_source (w_loader w) (w_load_faults w) dir) deps d d ps ->
  loads_all (lo_js (w_loader w)) (load_from_source (w_loader w) (w_load_faults w) dir) deps d' d' ps ->
  what (dir ++ [lit "scripts"]) d = KNone -> edited (dir ++ [lit "content"]) e e' d d' -> unplaced ps -> sources_layout (w_host w) (lit "content") e e' ->
  ((exists d1 items, main w lv (CmdBuild manifest output) d = (d1, Exit 0, items)) <-> (exists d1' items', main w lv (CmdBuild manifest output) d' = (d1', Exit 0, items'))) /\
  forall d1 items d1' items', main w lv (CmdBuild manifest output) d = (d1, Exit 0, items) -> main w lv (CmdBuild manifest output) d' = (d1', Exit 0, items') ->
    forall q, what q d1' = what q d1 \/ (template_at (dir ++ [lit "content"]) q /\ exists b b', what q d1 = KFile b /\ what q d1' = KFile b').
Proof. exact layout_command. Qed.
Print Assumptions C103_command.

(** A site with the options of its loop in another order, numbers with signs and zeros, and white space and
    commas in many places; a template is written in another way, too. *)
Example C103_host : host := Host (fun _ => false) (fun t => lit "<p>" ++ t ++ lit "</p>") None (fun _ => Some (VArr [VStr (lit "p"); VStr (lit "q"); VStr (lit "r"); VStr (lit "s")])).
Example C103_page : text := lit "x{{ begin(""b"") }}{{ for($v, ""d.json"", limit=2, order=""desc"", skip=1) }}{{ $v }};{{ end(for) }}{{ demo::demo() }}{{ end(""b"") }}y".
Example C103_other : text := lit "x{{begin( ,""b"" )}}{{ for ( $v,, ""d.json"" , order=""desc"",skip=+1, limit=002 ,) }}{{$v}};{{end (for)}}{{
  demo::demo ()  }}{{ end(""b"")}}y".
Example C103_root : text := lit "<{{ insert(""b"") }}>".
Example C103_root' : text := lit "<{{insert ( ""b"" )
}}>".
Example C103_content (page root : text) : ent := EDir
  [(lit "a.html", EFile (enc page)); (lit "d.json", EFile (enc (lit "[]"))); (lit "root.html", EFile (enc root))].
Example C103_st : stuart := stuart_new config_default [demo].
Example C103_build (page root : text) := build C103_host [] (lit "production") (SourceDir [lit "c"] (lit "c") (Some (C103_content page root))) C103_st.
(** They are written in different ways only. *)
Example C103_page_same : same_template (fun _ => false) C103_page C103_other.
Proof.
  assert (A : exists l l' r, shape 100 (fun _ => false) C103_page = Some (l, r) /\ shape 100 (fun _ => false) C103_other = Some (l', r) /\
    Forall2 (fun a a' => fst a' = fst a /\ same_tag (snd a) (snd a')) l l').
  { do 3 eexists. split; [vm_compute; reflexivity|]. split; [vm_compute; reflexivity|].
    repeat first [apply Forall2_nil | apply Forall2_cons; [split; [reflexivity|first [apply st_same|apply st_for]]|]].
    - cbn. apply (Permutation_trans (perm_swap _ _ _)). apply perm_skip. apply perm_swap.
    - vm_compute. constructor. }
  destruct A as (l & l' & r & A & B & C). exists l, l', r. split; [exact (shape_sound _ _ _ _ _ A)|]. split; [exact (shape_sound _ _ _ _ _ B)|exact C].
Qed.
Example C103_root_same : same_template (fun _ => false) C103_root C103_root'.
Proof.
  assert (A : exists l r, shape 100 (fun _ => false) C103_root = Some (l, r) /\ shape 100 (fun _ => false) C103_root' = Some (l, r)) by (do 2 eexists; split; vm_compute; reflexivity).
  destruct A as (l & r & A & B). exists l, l, r. split; [exact (shape_sound _ _ _ _ _ A)|]. split; [exact (shape_sound _ _ _ _ _ B)|]. clear. induction l; constructor; auto. split; constructor.
Qed.
Example C103_sources name : sources_layout C103_host name (C103_content C103_page C103_root) (C103_content C103_other C103_root').
Proof.
  assert (U : forall t, match from_utf8 (enc t) with Some t' => t' = t | None => False end -> utf8_text (enc t) t).
  { intros t H. apply decoding. destruct (from_utf8 (enc t)); [now subst|contradiction]. }
  apply sy_dir. repeat apply Forall2_cons; try apply Forall2_nil; (split; [reflexivity|apply sy_file]).
  - apply (fy_html _ _ _ _ C103_page C103_other); [apply extension_spec; reflexivity|apply U; vm_compute; reflexivity|apply U; vm_compute; reflexivity|exact C103_page_same].
  - apply fy_same.
  - apply (fy_html _ _ _ _ C103_root C103_root'); [apply extension_spec; reflexivity|apply U; vm_compute; reflexivity|apply U; vm_compute; reflexivity|exact C103_root_same].
Qed.
Example C103_unplaced : unplaced (st_plugins C103_st).
Proof. apply (C103_plugins (fun b => inr b)). intros pl [<-|[]]. left. now right; left. Qed.
(** Both are built, to the same page. *)
Example C103_built : snd (build C103_host [] (lit "production") (SourceDir [lit "c"] (lit "c") (Some (C103_content C103_page C103_root))) C103_st) = Ok tt.
Proof. vm_compute. reflexivity. Qed.
Example C103_page_of (page root : text) : option bytes := match st_output (fst (C103_build page root)) with Some n => match get_at_path n (lit "a.html") with Some (NFile _ b _ _ _) => Some b | _ => None end | None => None end.
Example C103_result : C103_page_of C103_page C103_root = Some (enc (lit "<r;q;<p>This was written by the demo function!</p>>")) /\
  C103_page_of C103_other C103_root' = C103_page_of C103_page C103_root.
Proof. split; vm_compute; reflexivity. Qed.
Example C103_applies : snd (build C103_host [] (lit "production") (SourceDir [lit "c"] (lit "c") (Some (C103_content C103_other C103_root'))) C103_st) = Ok tt.
Proof. exact (proj1 (C103_builds C103_host [] (lit "production") [lit "c"] (lit "c") _ _ C103_st C103_unplaced (C103_sources _)) C103_built). Qed.
(** A page that fails: the loop goes over a file that is not there; the error is found at another place. *)
Example C103_bad : text := lit "{{ for($v, ""no.json"") }}{{ end(for) }}".
Example C103_bad' : text := lit "{{
 for($v , ""no.json"" ,) }}{{end(for)}}".
Example C103_bad_same : same_template (fun _ => false) C103_bad C103_bad'.
Proof.
  assert (A : exists l r, shape 100 (fun _ => false) C103_bad = Some (l, r) /\ shape 100 (fun _ => false) C103_bad' = Some (l, r)) by (do 2 eexists; split; vm_compute; reflexivity).
  destruct A as (l & r & A & B). exists l, l, r. split; [exact (shape_sound _ _ _ _ _ A)|]. split; [exact (shape_sound _ _ _ _ _ B)|]. clear. induction l; constructor; auto. split; constructor.
Qed.
Example C103_error (page root : text) : option (N * N * process_error) := match snd (C103_build page root) with Err (E_Process x) => Some (tb_line x, tb_col x, tb_kind x) | _ => None end.
Example C103_failed : C103_error C103_bad C103_root = Some (1, 3, XE_NotFound (lit "no.json"))%N /\ C103_error C103_bad' C103_root = Some (2, 0, XE_NotFound (lit "no.json"))%N.
Proof. split; vm_compute; reflexivity. Qed.
(** Of two values for [order] the last one counts, so their order matters. *)
Example C103_order : C103_page_of (lit "{{ begin(""b"") }}{{ for($v, ""d.json"", order=""asc"", order=""desc"") }}{{ $v }}{{ end(for) }}{{ end(""b"") }}") C103_root = Some (enc (lit "<srqp>")) /\
  C103_page_of (lit "{{ begin(""b"") }}{{ for($v, ""d.json"", order=""desc"", order=""asc"") }}{{ $v }}{{ end(for) }}{{ end(""b"") }}") C103_root = Some (enc (lit "<pqrs>")).
Proof. split; vm_compute; reflexivity. Qed.
(** The whole command; the plugin is one of those that come with the program. *)
Example C103_loader : loader := Loader true (fun _ => false) (fun _ _ d => (d, false)) (fun _ d => (d, false)) (fun _ => None) (fun _ => None)
  (fun _ d => (d, false)) (fun _ _ => Some demo) (fun _ _ => Ok demo).
Example C103_world : Main.world := Main.World C103_host (fun _ => enc (lit "meta")) [] (fun _ _ d => (d, ScriptOk))
  (fun _ => TomlOk (RawConfig (lit "s") None None) [(lit "demo", lit "demo.so")]) C103_loader (fun _ _ => None) (fun _ => no_faults) (fun _ => None) (EDir []) no_user None None [].
Example C103_project (page root : text) : ent := EDir [(lit "stuart.toml", EFile []); (lit "demo.so", EFile []); (lit "content", C103_content page root)].
Example C103_loads page root : loads_all (lo_js (w_loader C103_world)) (load_from_source (w_loader C103_world) (w_load_faults C103_world) []) [(lit "demo", lit "demo.so")] (C103_project page root) (C103_project page root) [demo].
Proof. apply plugins_loaded. vm_compute. reflexivity. Qed.
Example C103_run (page root : text) := main C103_world Normal (CmdBuild (lit "stuart.toml") (lit "dist")) (C103_project page root).
Example C103_whole : (exists d1 items, C103_run C103_page C103_root = (d1, Exit 0, items)) <-> (exists d1' items', C103_run C103_other C103_root' = (d1', Exit 0, items')).
Proof.
  refine (proj1 (C103_command C103_world Normal (lit "stuart.toml") (lit "dist") [] (lit "stuart.toml") (RawConfig (lit "s") None None) [(lit "demo", lit "demo.so")] [demo]
    (C103_project C103_page C103_root) (C103_project C103_other C103_root') (C103_content C103_page C103_root) (C103_content C103_other C103_root') _ _ _ (C103_loads _ _) (C103_loads _ _) _ _ C103_unplaced (C103_sources _))).
  - apply join_meant. reflexivity.
  - exists [], []. split; [reflexivity|]. split; [apply decoding; reflexivity|reflexivity].
  - discriminate.
  - reflexivity.
  - split; reflexivity.
Qed.
Example C103_exits : match C103_run C103_other C103_root' with (d, x, _) => x = Exit 0 /\
    what [lit "dist"; lit "a"; lit "index.html"] d = KFile (enc (lit "<r;q;<p>This was written by the demo function!</p>>")) end.
Proof. vm_compute. split; reflexivity. Qed.
