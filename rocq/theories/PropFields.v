(** PropFields.v -- C106: fields that no tag asks for do not matter. *)

From Coq Require Import String List NArith ZArith Bool.
From Verif Require Import Text Utf8 Json Base Syntax Parse Tree Interp Build Disk Cli Load Report Main Js Shipped.
From Verif Require Import SpecScope SpecUtf8 SpecTree SpecSite SpecDisk SpecAlike SpecProject SpecMain SpecSays SpecFields.
From Verif Require Import Utf8Facts TreeFacts MarkdownFacts NewFacts MainFacts FieldsFacts FieldsCmd.
Import ListNotations.

(** Let [P] hold of the fields that some tag of the site asks for, and of those its plugins look at.  Sources
    whose data files have the same values but for other fields, and whose posts have the same body and the same
    front matter but for other fields, build in the same way, with the same error if there is one. *)
Theorem C106_result : forall (P : text -> Prop) h osenv mode p name e e' st, (forall k, asked h (st_plugins st) e k -> P k) ->
  plugins_give (heedless P) (st_plugins st) -> sources_on P h name e e' ->
  snd (build h osenv mode (SourceDir p name (Some e')) st) = snd (build h osenv mode (SourceDir p name (Some e)) st).
Proof. exact (fun P h osenv mode p name e e' st A G S => proj1 (fields_build P h osenv mode p name e e' st A G S)). Qed.
Print Assumptions C106_result.
(** What comes out is the same, but for the contents of data files, which are those of the sources, and for what
    is recorded about data files and posts. *)
Theorem C106_site : forall (P : text -> Prop) h osenv mode p name e e' st out, (forall k, asked h (st_plugins st) e k -> P k) ->
  plugins_give (heedless P) (st_plugins st) -> sources_on P h name e e' ->
  st_output (fst (build h osenv mode (SourceDir p name (Some e)) st)) = Some out ->
  exists out', st_output (fst (build h osenv mode (SourceDir p name (Some e')) st)) = Some out' /\ output_on out out'.
Proof. exact fields_site. Qed.
Print Assumptions C106_site.
(** Saving it, even if the disk fails on the way, leaves disks that differ in contents of data files only; if
    data files are not saved, in nothing. *)
Theorem C106_saved : forall (P : text -> Prop) h osenv mode p name e e' st, (forall k, asked h (st_plugins st) e k -> P k) ->
  plugins_give (heedless P) (st_plugins st) -> sources_on P h name e e' ->
  let b := fst (build h osenv mode (SourceDir p name (Some e)) st) in let b' := fst (build h osenv mode (SourceDir p name (Some e')) st) in
  forall f q d, snd (save f b' q d) = snd (save f b q d) /\ same_but_data (fst (save f b q d)) (fst (save f b' q d)) /\
    (cf_data (st_config st) = false -> save f b' q d = save f b q d).
Proof. exact fields_save. Qed.
Print Assumptions C106_saved.
(** The whole command, [stuart build], in a project without scripts whose plugins are read and not built. *)
Theorem C106_command : forall (P : text -> Prop) w lv manifest output dir name r deps ps d d' e e', meant (w_cwd w) manifest (dir ++ [name]) ->
  manifest_says w (dir ++ [name]) d r deps -> name <> lit "content" ->
  loads_all (lo_js (w_loader w)) (load_from_source (w_loader w) (w_load_faults w) dir) deps d d ps ->
  loads_all (lo_js (w_loader w)) (load_from_source (w_loader w) (w_load_faults w) dir) deps d' d' ps ->
  what (dir ++ [lit "scripts"]) d = KNone -> edited (dir ++ [lit "content"]) e e' d d' ->
  (forall k, asked (w_host w) ps e k -> P k) -> plugins_give (heedless P) ps -> sources_on P (w_host w) (lit "content") e e' ->
  exists d1 d1' x x' items items', main w lv (CmdBuild manifest output) d = (d1, x, items) /\ main w lv (CmdBuild manifest output) d' = (d1', x', items') /\
    same_end x x' items items' /\
    forall q, what q d1' = what q d1 \/ (data_or_post (dir ++ [lit "content"]) q /\ exists b b', what q d1 = KFile b /\ what q d1' = KFile b').
Proof. exact fields_command. Qed.
Print Assumptions C106_command.
(** Adding or removing such a field is such a change, in objects at any depth and in front matter. *)
Theorem C106_added : forall (P : text -> Prop) l1 l2 k v, ~ P k -> value_on P (VObj (l1 ++ l2)) (VObj (l1 ++ (k, v) :: l2)).
Proof. exact added_value. Qed.
Print Assumptions C106_added.
Theorem C106_front : forall (P : text -> Prop) l1 l2 k v, ~ P k -> fields_on P (l1 ++ l2) (l1 ++ (k, v) :: l2).
Proof. exact added_fields. Qed.
Print Assumptions C106_front.
(** The plugins that come with the program do not look at fields. *)
Theorem C106_plugins : forall (P : text -> Prop) o, plugins_give (heedless P) [imgopt o; demo].
Proof. exact shipped_heedless. Qed.
Print Assumptions C106_plugins.

(** A list of things sorted by a field, and a post. *)
Example C106_data : text := lit "[{""n"":""1"",""m"":""z""},{""n"":""2"",""m"":""y""}]".
Example C106_data' : text := lit "[{""x"":{},""n"":""1"",""m"":""z""},{""n"":""2"",""m"":""y""}]".
Example C106_value : value := VArr [VObj [(lit "n", VStr (lit "1")); (lit "m", VStr (lit "z"))]; VObj [(lit "n", VStr (lit "2")); (lit "m", VStr (lit "y"))]].
Example C106_value' : value := VArr [VObj [(lit "x", VObj []); (lit "n", VStr (lit "1")); (lit "m", VStr (lit "z"))]; VObj [(lit "n", VStr (lit "2")); (lit "m", VStr (lit "y"))]].
Example C106_host : host := Host (fun _ => false) (fun t => lit "<p>" ++ t ++ lit "</p>") None
  (fun t => if text_eqb t C106_data then Some C106_value else if text_eqb t C106_data' then Some C106_value' else None).
Example C106_page : text := lit "{{ begin(""b"") }}{{ for($v, ""d.json"", sortby=$v.m) }}{{ $v.n }};{{ end(for) }}{{ for($q, ""posts/"") }}{{ $q.title }}{{ $q.content }}{{ end(for) }}{{ demo::demo() }}{{ end(""b"") }}".
Example C106_post : text := lit "---" ++ [c_lf] ++ lit "title: ""T""" ++ [c_lf] ++ lit "day: ""D""" ++ [c_lf] ++ lit "---" ++ [c_lf] ++ lit "one".
Example C106_post' : text := lit "---" ++ [c_lf] ++ lit "title: ""T""" ++ [c_lf] ++ lit "by: ""me""" ++ [c_lf] ++ lit "day: ""D""" ++ [c_lf] ++ lit "---" ++ [c_lf] ++ lit "one".
Example C106_content (data post : text) : ent := EDir
  [(lit "a.html", EFile (enc C106_page)); (lit "d.json", EFile (enc data)); (lit "posts", EDir [(lit "one.md", EFile (enc post))]);
   (lit "md.html", EFile (enc (lit "{{ begin(""b"") }}{{ $self.title }}{{ end(""b"") }}")));
   (lit "root.html", EFile (enc (lit "<{{ insert(""b"") }}>")))].
Example C106_wanted (k : text) : Prop := In k [lit "n"; lit "m"; lit "title"; lit "content"].
Example C106_values : value_on C106_wanted C106_value C106_value'.
Proof.
  apply vo_array. apply Forall2_cons; [|apply Forall2_cons; [apply vo_same|apply Forall2_nil]].
  apply (C106_added C106_wanted [] [(lit "n", VStr (lit "1")); (lit "m", VStr (lit "z"))]). cbn. intuition discriminate.
Qed.
Example C106_same name : sources_on C106_wanted C106_host name (C106_content C106_data C106_post) (C106_content C106_data' C106_post').
Proof.
  assert (U : forall t, match from_utf8 (enc t) with Some t' => t' = t | None => False end -> utf8_text (enc t) t).
  { intros t H. apply decoding. destruct (from_utf8 (enc t)); [now subst|contradiction]. }
  assert (R : forall nm b, sources_on C106_wanted C106_host nm (EFile b) (EFile b)) by (intros; constructor; constructor).
  apply so_dir. repeat apply Forall2_cons; try apply Forall2_nil; (split; [reflexivity|]); cbn [fst snd]; try apply R.
  - apply so_file. apply (fo_data _ _ _ _ _ C106_data C106_data'); [apply extension_spec; reflexivity|apply U; vm_compute; reflexivity|apply U; vm_compute; reflexivity|].
    change (h_json C106_host C106_data) with (Some C106_value). change (h_json C106_host C106_data') with (Some C106_value'). exact C106_values.
  - apply so_dir. apply Forall2_cons; [|apply Forall2_nil]. split; [reflexivity|]. cbn [fst snd]. apply so_file.
    apply (fo_post _ _ _ _ _ C106_post C106_post' [(lit "title", lit "T"); (lit "day", lit "D")] [(lit "title", lit "T"); (lit "by", lit "me"); (lit "day", lit "D")] (lit "one"));
      [apply extension_spec; reflexivity|apply U; vm_compute; reflexivity|apply U; vm_compute; reflexivity| | |].
    + right. split; [exists (lit "title: ""T""" ++ [c_lf] ++ lit "day: ""D""" ++ [c_lf] ++ lit "---" ++ [c_lf] ++ lit "one"); left; reflexivity|].
      exists [lit "title: ""T"""; lit "day: ""D"""], (lit "---"), [lit "one"].
      split; [exact (lines_spec C106_post)|]. split; [repeat constructor; apply front_line_iff; vm_compute; reflexivity|].
      split; [repeat constructor; intros (r & E); discriminate E|]. split; [now exists []|reflexivity].
    + right. split; [exists (lit "title: ""T""" ++ [c_lf] ++ lit "by: ""me""" ++ [c_lf] ++ lit "day: ""D""" ++ [c_lf] ++ lit "---" ++ [c_lf] ++ lit "one"); left; reflexivity|].
      exists [lit "title: ""T"""; lit "by: ""me"""; lit "day: ""D"""], (lit "---"), [lit "one"].
      split; [exact (lines_spec C106_post')|]. split; [repeat constructor; apply front_line_iff; vm_compute; reflexivity|].
      split; [repeat constructor; intros (r & E); discriminate E|]. split; [now exists []|reflexivity].
    + apply (C106_front C106_wanted [(lit "title", lit "T")] [(lit "day", lit "D")]). cbn. intuition discriminate.
Qed.
Example C106_st (data : bool) : stuart := stuart_new (Config [] None true data true) [demo].
Example C106_heedless : plugins_give (heedless C106_wanted) [demo].
Proof. intros pl f raw g I. apply (C106_plugins C106_wanted (fun _ => inl []) pl f raw g). now right. Qed.
Example C106_asked k : asked C106_host [demo] (C106_content C106_data C106_post) k -> C106_wanted k.
Proof. intros A. apply (asked_listed _ _ _ _ []) in A. vm_compute in A. cbn. tauto. Qed.
Example C106_disk (data : bool) (t post : text) : ent := fst (save None (fst (build C106_host [] (lit "production") (SourceDir [lit "c"] (lit "c") (Some (C106_content t post))) (C106_st data))) [lit "dist"] (EDir [])).
Example C106_on_disk : what [lit "dist"; lit "a"; lit "index.html"] (C106_disk true C106_data' C106_post') = KFile (enc (lit "<2;1;T<p>one</p><p>This was written by the demo function!</p>>")) /\
  what [lit "dist"; lit "a"; lit "index.html"] (C106_disk true C106_data C106_post) = KFile (enc (lit "<2;1;T<p>one</p><p>This was written by the demo function!</p>>")) /\
  what [lit "dist"; lit "d.json"] (C106_disk true C106_data' C106_post') = KFile (enc C106_data').
Proof. repeat split; vm_compute; reflexivity. Qed.
Example C106_identical : C106_disk false C106_data' C106_post' = C106_disk false C106_data C106_post.
Proof. exact (f_equal fst (proj2 (proj2 (C106_saved C106_wanted C106_host [] (lit "production") [lit "c"] (lit "c") _ _ (C106_st false) C106_asked C106_heedless (C106_same _) None [lit "dist"] (EDir []))) eq_refl)). Qed.
(** A field that is asked for does matter. *)
Example C106_matters : what [lit "dist"; lit "a"; lit "index.html"] (C106_disk true C106_data (lit "---" ++ [c_lf] ++ lit "title: ""U""" ++ [c_lf] ++ lit "---" ++ [c_lf] ++ lit "one")) =
  KFile (enc (lit "<2;1;U<p>one</p><p>This was written by the demo function!</p>>")).
Proof. vm_compute. reflexivity. Qed.
(** The whole command. *)
Example C106_loader : loader := Loader true (fun _ => false) (fun _ _ d => (d, false)) (fun _ d => (d, false)) (fun _ => None) (fun _ => None)
  (fun _ d => (d, false)) (fun _ _ => Some demo) (fun _ _ => Ok demo).
Example C106_world (fs : nat -> faults) : Main.world := Main.World C106_host (fun _ => enc (lit "meta")) [] (fun _ _ d => (d, ScriptOk))
  (fun _ => TomlOk (RawConfig (lit "s") None None) [(lit "demo", lit "demo.so")]) C106_loader (fun _ _ => None) fs (fun _ => None) (EDir []) no_user None None [].
Example C106_project (data post : text) : ent := EDir [(lit "stuart.toml", EFile []); (lit "demo.so", EFile []); (lit "content", C106_content data post)].
Example C106_loads fs data post : loads_all (lo_js (w_loader (C106_world fs))) (load_from_source (w_loader (C106_world fs)) (w_load_faults (C106_world fs)) []) [(lit "demo", lit "demo.so")] (C106_project data post) (C106_project data post) [demo].
Proof. apply ProgramFacts.plugins_loaded. vm_compute. reflexivity. Qed.
Example C106_run (fs : nat -> faults) (data post : text) := main (C106_world fs) Normal (CmdBuild (lit "stuart.toml") (lit "dist")) (C106_project data post).
Example C106_applies (fs : nat -> faults) : exists d1 d1' x x' items items', C106_run fs C106_data C106_post = (d1, x, items) /\ C106_run fs C106_data' C106_post' = (d1', x', items') /\
    same_end x x' items items' /\
    forall q, what q d1' = what q d1 \/ (data_or_post [lit "content"] q /\ exists b b', what q d1 = KFile b /\ what q d1' = KFile b').
Proof.
  refine (C106_command C106_wanted (C106_world fs) Normal (lit "stuart.toml") (lit "dist") [] (lit "stuart.toml") (RawConfig (lit "s") None None) [(lit "demo", lit "demo.so")] [demo]
    (C106_project C106_data C106_post) (C106_project C106_data' C106_post') (C106_content C106_data C106_post) (C106_content C106_data' C106_post') _ _ _ (C106_loads fs _ _) (C106_loads fs _ _) _ _ C106_asked C106_heedless (C106_same _)).
  - apply join_meant. reflexivity.
  - exists [], []. split; [reflexivity|]. split; [apply decoding; reflexivity|reflexivity].
  - discriminate.
  - reflexivity.
  - split; reflexivity.
Qed.
Example C106_exits : match C106_run (fun _ => no_faults) C106_data' C106_post' with (d, x, _) => x = Exit 0 end /\
  match C106_run (fun _ => Faults None (Some (Fault 3 None)) None) C106_data' C106_post' with (d, x, _) => x = Exit 1 end.
Proof. vm_compute. split; reflexivity. Qed.
