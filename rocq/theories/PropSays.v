(** PropSays.v -- property C104: only what data files and posts say matters. *)

From Coq Require Import String List NArith ZArith Bool.
From Verif Require Import Text Utf8 Json Base Syntax Parse Tree Interp Build Disk Cli Load Report Main.
From Verif Require Import SpecTemplate SpecMarkdown SpecUtf8 SpecTree SpecSite SpecDisk SpecAlike SpecProject SpecMain SpecSays.
From Verif Require Import Utf8Facts TreeFacts MarkdownFacts NewFacts MainFacts SaysFacts AlterFacts.
Import ListNotations.

(** ** C104 *)
(** A build of sources that say the same ends in the same way, with the same error if there is one. *)
Theorem C104_result : forall h osenv mode p name e e' st, sources_say h name e e' ->
  snd (build h osenv mode (SourceDir p name (Some e')) st) = snd (build h osenv mode (SourceDir p name (Some e)) st).
Proof. exact (fun h osenv mode p name e e' st S => proj1 (says_build h osenv mode p name e e' st S)). Qed.
Print Assumptions C104_result.
(** What comes out is the same, but for the contents of data files. *)
Theorem C104_site : forall h osenv mode p name e e' st out, sources_say h name e e' ->
  st_output (fst (build h osenv mode (SourceDir p name (Some e)) st)) = Some out ->
  exists out', st_output (fst (build h osenv mode (SourceDir p name (Some e')) st)) = Some out' /\ output_says out out'.
Proof. exact says_site. Qed.
Print Assumptions C104_site.
(** Saving it ends in the same way and leaves disks that differ in the contents of data files only,
    whatever goes wrong while saving. *)
Theorem C104_saved : forall h osenv mode p name e e' st, sources_say h name e e' ->
  let b := fst (build h osenv mode (SourceDir p name (Some e)) st) in let b' := fst (build h osenv mode (SourceDir p name (Some e')) st) in
  forall f q d, snd (save f b' q d) = snd (save f b q d) /\ same_but_data (fst (save f b q d)) (fst (save f b' q d)).
Proof. exact (fun h osenv mode p name e e' st S f q d => conj (proj1 (says_save h osenv mode p name e e' st S f q d)) (proj1 (proj2 (says_save h osenv mode p name e e' st S f q d)))). Qed.
Print Assumptions C104_saved.
(** If data files are not to be saved, the very same is written; the metadata is the same in any case. *)
Theorem C104_hidden : forall h osenv mode p name e e' st, sources_say h name e e' ->
  let b := fst (build h osenv mode (SourceDir p name (Some e)) st) in let b' := fst (build h osenv mode (SourceDir p name (Some e')) st) in
  forall f q d, (cf_data (st_config st) = false -> save f b' q d = save f b q d) /\ forall ser, save_metadata ser f b' q d = save_metadata ser f b q d.
Proof. exact (fun h osenv mode p name e e' st S f q d => proj2 (proj2 (says_save h osenv mode p name e e' st S f q d))). Qed.
Print Assumptions C104_hidden.

(** The whole command, [stuart build], in a project without scripts whose plugins are read and not built:
    it ends in the same way, with the same message if it fails, and all it leaves is the same but for the
    contents of data files, and of the posts in the project, which it does not write. *)
Theorem C104_command : forall w lv manifest output dir name r deps ps d d' e e', meant (w_cwd w) manifest (dir ++ [name]) ->
  manifest_says w (dir ++ [name]) d r deps -> name <> lit "content" ->
  loads_all (lo_js (w_loader w)) (load_from_source (w_loader w) (w_load_faults w) dir) deps d d ps ->
  loads_all (lo_js (w_loader w)) (load_from_source (w_loader w) (w_load_faults w) dir) deps d' d' ps ->
  what (dir ++ [lit "scripts"]) d = KNone -> edited (dir ++ [lit "content"]) e e' d d' -> sources_say (w_host w) (lit "content") e e' ->
  exists d1 d1' x x' items items', main w lv (CmdBuild manifest output) d = (d1, x, items) /\ main w lv (CmdBuild manifest output) d' = (d1', x', items') /\
    same_end x x' items items' /\
    forall q, what q d1' = what q d1 \/ (data_or_post (dir ++ [lit "content"]) q /\ exists b b', what q d1 = KFile b /\ what q d1' = KFile b').
Proof. exact says_command. Qed.
Print Assumptions C104_command.

(** White space in a data file; white space, dashes and line ends in the front matter of a post; a front
    matter with nothing in it. *)
Example C104_host : host := Host (fun _ => false) (fun t => lit "<p>" ++ t ++ lit "</p>") None
  (fun t => Some (VArr [VStr (filter (fun c => negb (is_whitespace c)) t); VStr (lit "z")])).
Example C104_page : text := lit "{{ begin(""b"") }}{{ for($v, ""d.json"") }}{{ $v }};{{ end(for) }}{{ for($q, ""posts/"") }}{{ $q.title }}{{ $q.content }}{{ end(for) }}{{ end(""b"") }}".
Example C104_post : text := lit "---" ++ [c_lf] ++ lit "title: ""T""" ++ [c_lf] ++ lit "---" ++ [c_lf] ++ lit "one" ++ [c_lf] ++ lit "two".
Example C104_post' : text := lit "---" ++ [c_cr; c_lf] ++ lit "  title   :""T""  " ++ [c_cr; c_lf] ++ lit "-----" ++ [c_lf] ++ lit "one" ++ [c_cr; c_lf] ++ lit "two" ++ [c_lf].
Example C104_content (data post : text) : ent := EDir
  [(lit "a.html", EFile (enc C104_page)); (lit "d.json", EFile (enc data)); (lit "posts", EDir [(lit "one.md", EFile (enc post))]);
   (lit "md.html", EFile (enc (lit "{{ begin(""b"") }}{{ $self.title }}{{ end(""b"") }}")));
   (lit "root.html", EFile (enc (lit "<{{ insert(""b"") }}>")))].
Example C104_st (data : bool) : stuart := stuart_new (Config [] None true data true) [].
Example C104_same name : sources_say C104_host name (C104_content (lit "[1,2]") C104_post) (C104_content (lit " [1 , 2 ]  ") C104_post').
Proof.
  assert (U : forall t, match from_utf8 (enc t) with Some t' => t' = t | None => False end -> utf8_text (enc t) t).
  { intros t H. apply decoding. destruct (from_utf8 (enc t)); [now subst|contradiction]. }
  assert (R : forall nm b, sources_say C104_host nm (EFile b) (EFile b)) by (intros; constructor; constructor).
  apply so_dir. repeat apply Forall2_cons; try apply Forall2_nil; (split; [reflexivity|]); cbn [fst snd]; try apply R.
  - apply so_file. apply (ss_data _ _ _ _ (lit "[1,2]") (lit " [1 , 2 ]  ")); [apply extension_spec; reflexivity|apply U; vm_compute; reflexivity|apply U; vm_compute; reflexivity|vm_compute; reflexivity].
  - apply so_dir. apply Forall2_cons; [|apply Forall2_nil]. split; [reflexivity|]. cbn [fst snd]. apply so_file.
    apply (ss_post _ _ _ _ C104_post C104_post' [(lit "title", lit "T")] (lit "one" ++ [c_lf] ++ lit "two")); [apply extension_spec; reflexivity|apply U; vm_compute; reflexivity|apply U; vm_compute; reflexivity| |].
    + right. split; [exists (lit "title: ""T""" ++ [c_lf] ++ lit "---" ++ [c_lf] ++ lit "one" ++ [c_lf] ++ lit "two"); left; reflexivity|].
      exists [lit "title: ""T"""], (lit "---"), [lit "one"; lit "two"].
      split; [exact (lines_spec C104_post)|]. split; [constructor; [|constructor]; apply front_line_iff; vm_compute; reflexivity|].
      split; [constructor; [|constructor]; intros (r & E); discriminate E|]. split; [now exists []|reflexivity].
    + right. split; [exists (lit "  title   :""T""  " ++ [c_cr; c_lf] ++ lit "-----" ++ [c_lf] ++ lit "one" ++ [c_cr; c_lf] ++ lit "two" ++ [c_lf]); right; reflexivity|].
      exists [lit "  title   :""T""  "], (lit "-----"), [lit "one"; lit "two"].
      split; [exact (lines_spec C104_post')|]. split; [constructor; [|constructor]; apply front_line_iff; vm_compute; reflexivity|].
      split; [constructor; [|constructor]; intros (r & E); discriminate E|]. split; [now exists (lit "--")|reflexivity].
Qed.
Example C104_file (data post : text) (k : text) : option bytes :=
  match st_output (fst (build C104_host [] (lit "production") (SourceDir [lit "c"] (lit "c") (Some (C104_content data post))) (C104_st true))) with
  | Some n => match get_at_path n k with Some (NFile _ b _ _ _) => Some b | _ => None end | None => None end.
Example C104_pages : C104_file (lit "[1,2]") C104_post (lit "a.html") = Some (enc (lit "<[1,2];z;T<p>one" ++ [c_lf] ++ lit "two</p>>")) /\
  C104_file (lit " [1 , 2 ]  ") C104_post' (lit "a.html") = C104_file (lit "[1,2]") C104_post (lit "a.html").
Proof. split; vm_compute; reflexivity. Qed.
(** The data file itself is published as it was written. *)
Example C104_data : C104_file (lit " [1 , 2 ]  ") C104_post' (lit "d.json") = Some (enc (lit " [1 , 2 ]  ")).
Proof. vm_compute. reflexivity. Qed.
(** Other data gives another page. *)
Example C104_other : C104_file (lit "[1,3]") C104_post (lit "a.html") <> C104_file (lit "[1,2]") C104_post (lit "a.html").
Proof. vm_compute. discriminate. Qed.
(** On disk. *)
Example C104_disk (data : bool) (t post : text) : ent := fst (save None (fst (build C104_host [] (lit "production") (SourceDir [lit "c"] (lit "c") (Some (C104_content t post))) (C104_st data))) [lit "dist"] (EDir [])).
Example C104_on_disk : what [lit "dist"; lit "a"; lit "index.html"] (C104_disk true (lit " [1 , 2 ]  ") C104_post') = KFile (enc (lit "<[1,2];z;T<p>one" ++ [c_lf] ++ lit "two</p>>")) /\
  what [lit "dist"; lit "d.json"] (C104_disk true (lit " [1 , 2 ]  ") C104_post') = KFile (enc (lit " [1 , 2 ]  ")) /\
  what [lit "dist"; lit "d.json"] (C104_disk false (lit " [1 , 2 ]  ") C104_post') = KNone.
Proof. repeat split; vm_compute; reflexivity. Qed.
Example C104_identical : C104_disk false (lit " [1 , 2 ]  ") C104_post' = C104_disk false (lit "[1,2]") C104_post.
Proof. exact (f_equal fst (proj1 (C104_hidden C104_host [] (lit "production") [lit "c"] (lit "c") _ _ (C104_st false) (C104_same _) None [lit "dist"] (EDir [])) eq_refl)). Qed.
(** A post with an empty front matter says the same as one without. *)
Example C104_empty : md_parts (lit "---" ++ [c_lf] ++ lit "---" ++ [c_lf] ++ lit "x") [] (lit "x") /\ md_parts (lit "x") [] (lit "x").
Proof.
  split.
  - right. split; [exists (lit "---" ++ [c_lf] ++ lit "x"); left; reflexivity|]. exists [], (lit "---"), [lit "x"].
    split; [exact (lines_spec (lit "---" ++ [c_lf] ++ lit "---" ++ [c_lf] ++ lit "x"))|]. split; [constructor|]. split; [constructor|]. split; [now exists []|reflexivity].
  - left. split; [intros (r & [E|E]); discriminate E|]. split; [reflexivity|]. exists [lit "x"]. split; [exact (lines_spec (lit "x"))|reflexivity].
Qed.
(** The whole command. *)
Example C104_world (fs : nat -> faults) : Main.world := Main.World C104_host (fun _ => enc (lit "meta")) [] (fun _ _ d => (d, ScriptOk))
  (fun _ => TomlOk (RawConfig (lit "s") None (Some (Settings (Some true) (Some true) (Some true)))) []) no_loader (fun _ _ => None) fs (fun _ => None) (EDir []) no_user None None [].
Example C104_project (data post : text) : ent := EDir [(lit "stuart.toml", EFile []); (lit "content", C104_content data post)].
Example C104_run (fs : nat -> faults) (data post : text) := main (C104_world fs) Normal (CmdBuild (lit "stuart.toml") (lit "dist")) (C104_project data post).
Example C104_applies (fs : nat -> faults) : exists d1 d1' x x' items items', C104_run fs (lit "[1,2]") C104_post = (d1, x, items) /\ C104_run fs (lit " [1 , 2 ]  ") C104_post' = (d1', x', items') /\
    same_end x x' items items' /\
    forall q, what q d1' = what q d1 \/ (data_or_post [lit "content"] q /\ exists b b', what q d1 = KFile b /\ what q d1' = KFile b').
Proof.
  refine (C104_command (C104_world fs) Normal (lit "stuart.toml") (lit "dist") [] (lit "stuart.toml") (RawConfig (lit "s") None (Some (Settings (Some true) (Some true) (Some true)))) [] []
    (C104_project (lit "[1,2]") C104_post) (C104_project (lit " [1 , 2 ]  ") C104_post') (C104_content (lit "[1,2]") C104_post) (C104_content (lit " [1 , 2 ]  ") C104_post') _ _ _ _ _ _ _ _).
  - apply join_meant. reflexivity.
  - exists [], []. split; [reflexivity|]. split; [apply decoding; reflexivity|reflexivity].
  - discriminate.
  - constructor.
  - constructor.
  - reflexivity.
  - split; [reflexivity|]. unfold C104_project. reflexivity.
  - exact (C104_same _).
Qed.
Example C104_exits : (match C104_run (fun _ => no_faults) (lit " [1 , 2 ]  ") C104_post' with (d, x, _) => x = Exit 0 /\
    what [lit "dist"; lit "a"; lit "index.html"] d = KFile (enc (lit "<[1,2];z;T<p>one" ++ [c_lf] ++ lit "two</p>>")) /\ what [lit "metadata.json"] d = KFile (enc (lit "meta")) end) /\
  (match C104_run (fun _ => Faults None (Some (Fault 3 None)) None) (lit " [1 , 2 ]  ") C104_post' with (d, x, _) => x = Exit 1 end).
Proof. vm_compute. repeat split; reflexivity. Qed.
