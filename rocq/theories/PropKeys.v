(** PropKeys.v -- C105: the order of the fields of data and of front matter does not matter. *)

From Coq Require Import String List NArith ZArith Bool Permutation.
From Verif Require Import Text Utf8 Json Base Syntax Parse Tree Interp Build Disk Cli Load Report Main Js Shipped.
From Verif Require Import SpecScope SpecUtf8 SpecTree SpecSite SpecDisk SpecAlike SpecProject SpecMain SpecSays SpecKeys.
From Verif Require Import Utf8Facts TreeFacts MarkdownFacts NewFacts MainFacts KeysFacts KeysCmd.
Import ListNotations.

(** Sources whose data files have the same values but for the order of fields, and whose posts have the same
    body and the same front matter but for the order of its lines, build in the same way, with the same error if
    there is one. *)
Theorem C105_result : forall h osenv mode p name e e' st, plugins_give orderless (st_plugins st) -> sources_fields h name e e' ->
  snd (build h osenv mode (SourceDir p name (Some e')) st) = snd (build h osenv mode (SourceDir p name (Some e)) st).
Proof. exact (fun h osenv mode p name e e' st G S => proj1 (fields_build h osenv mode p name e e' st G S)). Qed.
Print Assumptions C105_result.
(** What comes out is the same, but for the contents of data files, which are those of the sources, and for the
    order of fields in what is recorded about files. *)
Theorem C105_site : forall h osenv mode p name e e' st out, plugins_give orderless (st_plugins st) -> sources_fields h name e e' ->
  st_output (fst (build h osenv mode (SourceDir p name (Some e)) st)) = Some out ->
  exists out', st_output (fst (build h osenv mode (SourceDir p name (Some e')) st)) = Some out' /\ output_fields out out'.
Proof. exact fields_site. Qed.
Print Assumptions C105_site.
(** Saving it, even if the disk fails on the way, leaves disks that differ in contents of data files only; if
    data files are not saved, in nothing. *)
Theorem C105_saved : forall h osenv mode p name e e' st, plugins_give orderless (st_plugins st) -> sources_fields h name e e' ->
  let b := fst (build h osenv mode (SourceDir p name (Some e)) st) in let b' := fst (build h osenv mode (SourceDir p name (Some e')) st) in
  forall f q d, snd (save f b' q d) = snd (save f b q d) /\ same_but_data (fst (save f b q d)) (fst (save f b' q d)) /\
    (cf_data (st_config st) = false -> save f b' q d = save f b q d).
Proof. exact fields_save. Qed.
Print Assumptions C105_saved.
(** The metadata is the same but for the order of fields. *)
Theorem C105_metadata : forall h osenv mode p name e e' st, plugins_give orderless (st_plugins st) -> sources_fields h name e e' ->
  both eq same_value (metadata_value (fst (build h osenv mode (SourceDir p name (Some e)) st))) (metadata_value (fst (build h osenv mode (SourceDir p name (Some e')) st))).
Proof. exact fields_metadata. Qed.
Print Assumptions C105_metadata.
(** The whole command, [stuart build], in a project without scripts whose plugins are read and not built. *)
Theorem C105_command : forall w lv manifest output dir name r deps ps d d' e e', meant (w_cwd w) manifest (dir ++ [name]) ->
  manifest_says w (dir ++ [name]) d r deps -> name <> lit "content" ->
  loads_all (lo_js (w_loader w)) (load_from_source (w_loader w) (w_load_faults w) dir) deps d d ps ->
  loads_all (lo_js (w_loader w)) (load_from_source (w_loader w) (w_load_faults w) dir) deps d' d' ps ->
  what (dir ++ [lit "scripts"]) d = KNone -> edited (dir ++ [lit "content"]) e e' d d' -> plugins_give orderless ps -> sources_fields (w_host w) (lit "content") e e' ->
  exists d1 d1' x x' items items', main w lv (CmdBuild manifest output) d = (d1, x, items) /\ main w lv (CmdBuild manifest output) d' = (d1', x', items') /\
    same_end x x' items items' /\
    forall q, what q d1' = what q d1 \/ (data_or_post (dir ++ [lit "content"]) q /\ exists b b', what q d1 = KFile b /\ what q d1' = KFile b').
Proof. exact fields_command. Qed.
Print Assumptions C105_command.
(** Permuting fields with distinct names is such a change, in objects at any depth and in front matter. *)
Theorem C105_permuted : forall l l', NoDup (map fst l) -> Permutation l l' -> same_value (VObj l) (VObj l').
Proof. exact permuted_same. Qed.
Print Assumptions C105_permuted.
Theorem C105_front : forall l l', NoDup (map fst l) -> Permutation l l' -> same_fields l l'.
Proof. exact permuted_fields. Qed.
Print Assumptions C105_front.
(** The plugins that come with the program do not look at the order of fields. *)
Theorem C105_plugins : forall o, plugins_give orderless [imgopt o; demo].
Proof. exact shipped_orderless. Qed.
Print Assumptions C105_plugins.

(** A list of things sorted by a field, and a post. *)
Example C105_data : text := lit "[{""n"":""1"",""m"":""z""},{""n"":""2"",""m"":""y""}]".
Example C105_data' : text := lit "[{""m"":""z"",""n"":""1""},{""m"":""y"",""n"":""2""}]".
Example C105_value : value := VArr [VObj [(lit "n", VStr (lit "1")); (lit "m", VStr (lit "z"))]; VObj [(lit "n", VStr (lit "2")); (lit "m", VStr (lit "y"))]].
Example C105_value' : value := VArr [VObj [(lit "m", VStr (lit "z")); (lit "n", VStr (lit "1"))]; VObj [(lit "m", VStr (lit "y")); (lit "n", VStr (lit "2"))]].
Example C105_host : host := Host (fun _ => false) (fun t => lit "<p>" ++ t ++ lit "</p>") None
  (fun t => if text_eqb t C105_data then Some C105_value else if text_eqb t C105_data' then Some C105_value' else None).
Example C105_page : text := lit "{{ begin(""b"") }}{{ for($v, ""d.json"", sortby=$v.m) }}{{ $v.n }};{{ end(for) }}{{ for($q, ""posts/"") }}{{ $q.title }}{{ $q.content }}{{ end(for) }}{{ demo::demo() }}{{ end(""b"") }}".
Example C105_post : text := lit "---" ++ [c_lf] ++ lit "title: ""T""" ++ [c_lf] ++ lit "day: ""D""" ++ [c_lf] ++ lit "---" ++ [c_lf] ++ lit "one".
Example C105_post' : text := lit "---" ++ [c_lf] ++ lit "day: ""D""" ++ [c_lf] ++ lit "title: ""T""" ++ [c_lf] ++ lit "---" ++ [c_lf] ++ lit "one".
Example C105_content (data post : text) : ent := EDir
  [(lit "a.html", EFile (enc C105_page)); (lit "d.json", EFile (enc data)); (lit "posts", EDir [(lit "one.md", EFile (enc post))]);
   (lit "md.html", EFile (enc (lit "{{ begin(""b"") }}{{ $self.title }}{{ end(""b"") }}")));
   (lit "root.html", EFile (enc (lit "<{{ insert(""b"") }}>")))].
Example C105_values : same_value C105_value C105_value'.
Proof.
  apply sv_array. apply Forall2_cons; [|apply Forall2_cons; [|apply Forall2_nil]]; (apply C105_permuted; [repeat constructor; cbn; intuition discriminate|apply perm_swap]).
Qed.
Example C105_same name : sources_fields C105_host name (C105_content C105_data C105_post) (C105_content C105_data' C105_post').
Proof.
  assert (U : forall t, match from_utf8 (enc t) with Some t' => t' = t | None => False end -> utf8_text (enc t) t).
  { intros t H. apply decoding. destruct (from_utf8 (enc t)); [now subst|contradiction]. }
  assert (R : forall nm b, sources_fields C105_host nm (EFile b) (EFile b)) by (intros; constructor; constructor).
  apply sf_dir. repeat apply Forall2_cons; try apply Forall2_nil; (split; [reflexivity|]); cbn [fst snd]; try apply R.
  - apply sf_file. apply (ff_data _ _ _ _ C105_data C105_data'); [apply extension_spec; reflexivity|apply U; vm_compute; reflexivity|apply U; vm_compute; reflexivity|].
    change (h_json C105_host C105_data) with (Some C105_value). change (h_json C105_host C105_data') with (Some C105_value'). exact C105_values.
  - apply sf_dir. apply Forall2_cons; [|apply Forall2_nil]. split; [reflexivity|]. cbn [fst snd]. apply sf_file.
    apply (ff_post _ _ _ _ C105_post C105_post' [(lit "title", lit "T"); (lit "day", lit "D")] [(lit "day", lit "D"); (lit "title", lit "T")] (lit "one"));
      [apply extension_spec; reflexivity|apply U; vm_compute; reflexivity|apply U; vm_compute; reflexivity| | |].
    + right. split; [exists (lit "title: ""T""" ++ [c_lf] ++ lit "day: ""D""" ++ [c_lf] ++ lit "---" ++ [c_lf] ++ lit "one"); left; reflexivity|].
      exists [lit "title: ""T"""; lit "day: ""D"""], (lit "---"), [lit "one"].
      split; [exact (lines_spec C105_post)|]. split; [repeat constructor; apply front_line_iff; vm_compute; reflexivity|].
      split; [repeat constructor; intros (r & E); discriminate E|]. split; [now exists []|reflexivity].
    + right. split; [exists (lit "day: ""D""" ++ [c_lf] ++ lit "title: ""T""" ++ [c_lf] ++ lit "---" ++ [c_lf] ++ lit "one"); left; reflexivity|].
      exists [lit "day: ""D"""; lit "title: ""T"""], (lit "---"), [lit "one"].
      split; [exact (lines_spec C105_post')|]. split; [repeat constructor; apply front_line_iff; vm_compute; reflexivity|].
      split; [repeat constructor; intros (r & E); discriminate E|]. split; [now exists []|reflexivity].
    + apply C105_front; [repeat constructor; cbn; intuition discriminate|apply perm_swap].
Qed.
Example C105_st (data : bool) : stuart := stuart_new (Config [] None true data true) [demo].
Example C105_orderless : plugins_give orderless [demo].
Proof. intros pl f raw g I. apply (C105_plugins (fun _ => inl []) pl f raw g). now right. Qed.
Example C105_disk (data : bool) (t post : text) : ent := fst (save None (fst (build C105_host [] (lit "production") (SourceDir [lit "c"] (lit "c") (Some (C105_content t post))) (C105_st data))) [lit "dist"] (EDir [])).
Example C105_on_disk : what [lit "dist"; lit "a"; lit "index.html"] (C105_disk true C105_data' C105_post') = KFile (enc (lit "<2;1;T<p>one</p><p>This was written by the demo function!</p>>")) /\
  what [lit "dist"; lit "a"; lit "index.html"] (C105_disk true C105_data C105_post) = KFile (enc (lit "<2;1;T<p>one</p><p>This was written by the demo function!</p>>")) /\
  what [lit "dist"; lit "d.json"] (C105_disk true C105_data' C105_post') = KFile (enc C105_data').
Proof. repeat split; vm_compute; reflexivity. Qed.
Example C105_identical : C105_disk false C105_data' C105_post' = C105_disk false C105_data C105_post.
Proof. exact (f_equal fst (proj2 (proj2 (C105_saved C105_host [] (lit "production") [lit "c"] (lit "c") _ _ (C105_st false) C105_orderless (C105_same _) None [lit "dist"] (EDir []))) eq_refl)). Qed.
(** The metadata has the fields of the front matter in their order. *)
Example C105_order (post : text) : option value := match metadata_value (fst (build C105_host [] (lit "production") (SourceDir [lit "c"] (lit "c") (Some (C105_content C105_data post))) (C105_st true))) with
  | Ok v => Some (get_value [lit "data"; lit "2"; lit "children"; lit "0"; lit "value"] v) | _ => None end.
Example C105_recorded : C105_order C105_post = Some (VObj [(lit "title", VStr (lit "T")); (lit "day", VStr (lit "D"))]) /\ C105_order C105_post' = Some (VObj [(lit "day", VStr (lit "D")); (lit "title", VStr (lit "T"))]).
Proof. split; vm_compute; reflexivity. Qed.
(** A function written in JavaScript can print the name of the first field of an object: it is not one of those
    the theorems are about. *)
Example C105_first : js_code := fun args => match args with [JsObj ((k, _) :: _)] => JsReturn (Some k) | _ => JsReturn None end.
Example C105_peek (l : list (text * value)) := js_exec C105_first [AVar (lit "v")] (Loc [] 0 0) (Scope 1 [Frame [] [(lit "v", VObj l)] []] []).
Example C105_sees : C105_peek [(lit "a", VNull); (lit "b", VNull)] = Ok (Scope 1 [Frame [] [(lit "v", VObj [(lit "a", VNull); (lit "b", VNull)])] (enc (lit "a"))] []) /\
  C105_peek [(lit "b", VNull); (lit "a", VNull)] = Ok (Scope 1 [Frame [] [(lit "v", VObj [(lit "b", VNull); (lit "a", VNull)])] (enc (lit "b"))] []).
Proof. split; vm_compute; reflexivity. Qed.

(** The whole command. *)
Example C105_loader : loader := Loader true (fun _ => false) (fun _ _ d => (d, false)) (fun _ d => (d, false)) (fun _ => None) (fun _ => None)
  (fun _ d => (d, false)) (fun _ _ => Some demo) (fun _ _ => Ok demo).
Example C105_world (fs : nat -> faults) : Main.world := Main.World C105_host (fun _ => enc (lit "meta")) [] (fun _ _ d => (d, ScriptOk))
  (fun _ => TomlOk (RawConfig (lit "s") None None) [(lit "demo", lit "demo.so")]) C105_loader (fun _ _ => None) fs (fun _ => None) (EDir []) no_user None None [].
Example C105_project (data post : text) : ent := EDir [(lit "stuart.toml", EFile []); (lit "demo.so", EFile []); (lit "content", C105_content data post)].
Example C105_loads fs data post : loads_all (lo_js (w_loader (C105_world fs))) (load_from_source (w_loader (C105_world fs)) (w_load_faults (C105_world fs)) []) [(lit "demo", lit "demo.so")] (C105_project data post) (C105_project data post) [demo].
Proof. apply ProgramFacts.plugins_loaded. vm_compute. reflexivity. Qed.
Example C105_run (fs : nat -> faults) (data post : text) := main (C105_world fs) Normal (CmdBuild (lit "stuart.toml") (lit "dist")) (C105_project data post).
Example C105_applies (fs : nat -> faults) : exists d1 d1' x x' items items', C105_run fs C105_data C105_post = (d1, x, items) /\ C105_run fs C105_data' C105_post' = (d1', x', items') /\
    same_end x x' items items' /\
    forall q, what q d1' = what q d1 \/ (data_or_post [lit "content"] q /\ exists b b', what q d1 = KFile b /\ what q d1' = KFile b').
Proof.
  refine (C105_command (C105_world fs) Normal (lit "stuart.toml") (lit "dist") [] (lit "stuart.toml") (RawConfig (lit "s") None None) [(lit "demo", lit "demo.so")] [demo]
    (C105_project C105_data C105_post) (C105_project C105_data' C105_post') (C105_content C105_data C105_post) (C105_content C105_data' C105_post') _ _ _ (C105_loads fs _ _) (C105_loads fs _ _) _ _ C105_orderless (C105_same _)).
  - apply join_meant. reflexivity.
  - exists [], []. split; [reflexivity|]. split; [apply decoding; reflexivity|reflexivity].
  - discriminate.
  - reflexivity.
  - split; reflexivity.
Qed.
Example C105_exits : match C105_run (fun _ => no_faults) C105_data' C105_post' with (d, x, _) => x = Exit 0 end /\
  match C105_run (fun _ => Faults None (Some (Fault 3 None)) None) C105_data' C105_post' with (d, x, _) => x = Exit 1 end.
Proof. vm_compute. split; reflexivity. Qed.
