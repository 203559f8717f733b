(** PropSite.v -- properties C61 and C62: the pages of a site, from the files of its content directory. *)

From Coq Require Import String List NArith ZArith Bool Lia.
From Verif Require Import Text Utf8 Json Base Syntax Parse Tree Interp Build Disk Cli.
From Verif Require Import SpecScope SpecRender SpecTemplate SpecLoop SpecBlocks SpecMarkdown SpecTree SpecDisk SpecProject SpecSite.
From Verif Require Import Utf8Facts GrammarFacts SiteFacts SiteDisk.
Import ListNotations.

(** ** C61 *)
(** In memory: every page the files of the content directory describe is in the output. *)
Theorem C61_published : forall h osenv mode d st content out, snd (build h osenv mode d st) = Ok tt ->
  st_output (fst (build h osenv mode d st)) = Some out -> sd_ent d = Some content -> ent_distinct content ->
  forall ks name o, published h (st_plugins st) (page_vars osenv mode) content ks name o ->
  exists m src, at_names out (ks ++ [name]) (NFile name o PNone m src).
Proof. exact site_published. Qed.
Print Assumptions C61_published.
(** On the disk: after a successful build of a project, the file of the page has its bytes, unless
    another file is saved at the same place (C40) or a script changes it. *)
Theorem C61_saved : forall m f c d c' d' d1 content ks name o q l out ch,
  cli_build m f c d = (c', d', COk) -> ran (m_script m) (cx_pre c) d d1 ->
  ent_distinct d1 -> (forall e, fl_temp f = Some (Some e) -> ent_distinct e) ->
  lookup (cx_dir c ++ [lit "content"]) d1 = Some content ->
  published (m_host m) (st_plugins (cx_stuart c)) (page_vars (m_osenv m) (cx_mode c)) content ks name o ->
  ~ hidden (st_config (cx_stuart c)) name -> saved_as (st_config (cx_stuart c)) ks name q ->
  st_output (cx_stuart c') = Some out -> n_children out = Some ch -> saves_all (st_config (cx_stuart c)) [] ch l ->
  (forall b', In (q, Some b') l -> b' = o) ->
  output_dir c ++ q <> cx_dir c ++ [lit "metadata.json"] ->
  scripts_leave (m_script m) (cx_post c) (eq (output_dir c ++ q)) ->
  what (output_dir c ++ q) d' = KFile o.
Proof. exact page_on_disk. Qed.
Print Assumptions C61_saved.

(** A site with two posts and a page that lists their titles. *)
Example C61_host : host := Host (fun _ => false) (fun t => lit "<p>" ++ t ++ lit "</p>") None (fun _ => None).
Example C61_file (t : string) : ent := EFile (enc (lit t)).
Example C61_nl : string := String (Ascii.ascii_of_nat 10) EmptyString.
Example C61_post (title : string) : string :=
  ("---" ++ C61_nl ++ "t: """ ++ title ++ """" ++ C61_nl ++ "---" ++ C61_nl ++ "hi")%string.
Example C61_page : string :=
  "{{ begin(""b"") }}{{ for($p, ""posts/"") }}{{ $p.t }};{{ end(for) }}{{ end(""b"") }}".
Example C61_posts : list (text * ent) := [(lit "a.md", C61_file (C61_post "A")); (lit "b.md", C61_file (C61_post "B"))].
Example C61_content : ent := EDir
  [(lit "list.html", C61_file C61_page); (lit "md.html", C61_file "{{ begin(""b"") }}{{ $self.content }}{{ end(""b"") }}");
   (lit "posts", EDir C61_posts); (lit "root.html", C61_file "<{{ insert(""b"") }}>")].
Example C61_values (title : string) : value :=
  VObj [(lit "t", VStr (lit title)); (lit "content", VStr (lit "<p>hi</p>")); (lit "markdown", VStr (lit "hi"))].
Example C61_one_post vars content title : title = "A"%string \/ title = "B"%string ->
  post C61_host [] vars content (enc (lit (C61_post title))) (C61_values title).
Proof.
  intros TT. exists (lit (C61_post title)), [(lit "t", lit title)], (lit "hi"), [BText (lit "hi")], (enc (lit "hi") ++ []), ([] ++ []), [], (lit "hi").
  exists [(lit "t", VStr (lit title)); (lit "content", VStr (lit "<p>hi</p>"))]. eexists. repeat split.
  - apply decoding. destruct TT as [-> | ->]; reflexivity.
  - right. split; [exists (lit "t: """ ++ lit title ++ lit """" ++ [c_lf] ++ lit "---" ++ [c_lf] ++ lit "hi"); left; destruct TT as [-> | ->]; reflexivity|].
    exists [lit "t: """ ++ lit title ++ lit """"], (lit "---"), [lit "hi"]. repeat split.
    + replace (lit (C61_post title)) with ((lit "---" ++ [c_lf] ++ (lit "t: """ ++ lit title ++ lit """") ++ [c_lf] ++ lit "---" ++ [c_lf] ++ []) ++ lit "hi")
        by (destruct TT as [-> | ->]; reflexivity).
      apply (tl_more [lit "---"; _; lit "---"]); [|discriminate|vm_compute; intuition discriminate].
      destruct TT as [-> | ->]; repeat first [apply el_nil|apply el_lf; [vm_compute; intuition discriminate|intros [[|? [|? [|? [|? [|? [|? [|? [|? r]]]]]]]] E]; discriminate|]].
    + constructor; [|constructor]. exists [], [], (lit " "), []. cbn [fst snd]. do 4 (split; [reflexivity|]). split; [split|split].
      * intros c r E. injection E as <- _. reflexivity.
      * intros c r E. destruct r as [|? [|? r]]; try discriminate. injection E as <-. reflexivity.
      * vm_compute. intuition discriminate.
      * destruct TT as [-> | ->]; reflexivity.
    + constructor; [|constructor]. intros [r E]. destruct TT as [-> | ->]; discriminate.
    + now exists [].
  - exists [], (lit "hi"). split; [exact (canonical _ _ _ _ (tt_end _ (lit "hi")))|exact (tk_end _ (lit "hi"))].
  - cbn [SpecSite.tags flat_map]. apply (pr_simple _ _ _ (BText (lit "hi")) [] vars [] []); [|apply pr_nil]. apply sh_text, decoding; reflexivity.
  - rewrite app_nil_r. apply decoding; reflexivity.
  - apply (sf_new (lit "content") _ [(lit "t", VStr (lit title))]). vm_compute. intuition discriminate.
  - apply (sf_new (lit "markdown") _ [(lit "t", VStr (lit title)); (lit "content", VStr (lit "<p>hi</p>"))]). vm_compute. intuition discriminate.
Qed.
Example C61_wrapper_written : written (fun _ => false) [] (lit "<{{ insert(""b"") }}>") [BText (lit "<"); BInsert (lit "b"); BText (lit ">")].
Proof.
  exists [(lit "<", GCall (lit "insert") [AStr (lit "b")] [])], (lit ">"). split.
  - apply canonical. refine (tt_tag _ (lit "<") _ (lit " ") (lit "insert(""b"")") (lit " ") _ _ _ _ _ _ _ (tt_end _ (lit ">"))); try reflexivity.
    + intros [|x1 [|x2 u]] c E; try discriminate. injection E as <-. split; discriminate.
    + refine (tb_call _ (lit "insert") [] [AStr (lit "b")] [] (lit """b""") _ _ _ _ _); try reflexivity; try discriminate.
      * repeat constructor. vm_compute; intuition discriminate.
      * refine (at_one [] _ _ [] _ _ (pt_pos _ _ (ar_str (lit "b")))); reflexivity.
  - refine (tk_tag _ (lit "<") _ _ _ (TFun (FInsert (lit "b"))) _ (de_builtin _ _ _ _ _ (bc_insert _)) _). exact (tk_end _ (lit ">")).
Qed.
Example C61_listed_page : page_of_file C61_host [] (page_vars [] (lit "production")) C61_content [] (lit "list.html") (enc (lit C61_page)) (lit "list.html") (enc (lit "<A;B;>")).
Proof.
  assert (NP : can_precede_tag []) by (intros u c E; destruct u; discriminate).
  set (f := ForFn (lit "p") (lit "posts/") SrcDir None None None false).
  refine (pf_html _ _ _ _ [] (lit "list.html") _ (lit C61_page)
    [BSection (lit "b") [BFor f [BVar (lit "p.t"); BText (lit ";")]]]
    [BText (lit "<"); BInsert (lit "b"); BText (lit ">")] (enc (lit "A;B;")) [(lit "b", enc (lit "A;B;"))] _ [(lit "b", enc (lit "A;B;"))] _ _ _ _ _ _ _).
  - exists (lit "list"). split; [reflexivity|]. split; [discriminate|vm_compute; intuition discriminate].
  - intros [E|E]; discriminate.
  - apply decoding; reflexivity.
  - exists [([], GCall (lit "begin") [AStr (lit "b")] []); ([], GCall (lit "for") [AVar (lit "p"); AStr (lit "posts/")] []);
            ([], GVar (lit "p.t")); (lit ";", GCall (lit "end") [AIdent (lit "for")] []); ([], GCall (lit "end") [AStr (lit "b")] [])], []. split.
    + apply canonical. refine (tt_tag _ [] _ (lit " ") (lit "begin(""b"")") (lit " ") _ _ _ NP _ _ _ _); try reflexivity.
      { refine (tb_call _ (lit "begin") [] [AStr (lit "b")] [] (lit """b""") _ _ _ _ _); try reflexivity; try discriminate.
        - repeat constructor. vm_compute; intuition discriminate.
        - refine (at_one [] _ _ [] _ _ (pt_pos _ _ (ar_str (lit "b")))); reflexivity. }
      refine (tt_tag _ [] _ (lit " ") (lit "for($p, ""posts/"")") (lit " ") _ _ _ NP _ _ _ _); try reflexivity.
      { refine (tb_call _ (lit "for") [] [AVar (lit "p"); AStr (lit "posts/")] [] (lit "$p, ""posts/""") _ _ _ _ _); try reflexivity; try discriminate.
        - repeat constructor. vm_compute; intuition discriminate.
        - refine (at_more [] _ _ [] _ _ (lit " ""posts/""") _ _ (pt_pos _ _ (ar_var (lit "p"))) _); try reflexivity.
          refine (at_one (lit " ") _ _ [] _ _ (pt_pos _ _ (ar_str (lit "posts/")))); reflexivity. }
      refine (tt_tag _ [] _ (lit " ") (lit "$p.t") (lit " ") _ _ _ NP _ _ _ _); try reflexivity.
      { apply tb_var; [discriminate|reflexivity]. }
      refine (tt_tag _ (lit ";") _ (lit " ") (lit "end(for)") (lit " ") _ _ _ _ _ _ _ _); try reflexivity.
      { intros [|x1 [|x2 u]] c E; try discriminate. injection E as <-. split; discriminate. }
      { refine (tb_call _ (lit "end") [] [AIdent (lit "for")] [] (lit "for") _ _ _ _ _); try reflexivity; try discriminate.
        - apply Forall_cons; [|apply Forall_nil]. split; [|exact I]. cbn. tauto.
        - refine (at_one [] _ _ [] _ _ (pt_pos _ _ (ar_ident (lit "for")))); reflexivity. }
      refine (tt_tag _ [] _ (lit " ") (lit "end(""b"")") (lit " ") _ _ _ NP _ _ _ (tt_end _ [])); try reflexivity.
      refine (tb_call _ (lit "end") [] [AStr (lit "b")] [] (lit """b""") _ _ _ _ _); try reflexivity; try discriminate.
      * repeat constructor. vm_compute; intuition discriminate.
      * refine (at_one [] _ _ [] _ _ (pt_pos _ _ (ar_str (lit "b")))); reflexivity.
    + refine (tk_tag _ [] _ _ _ (TFun (FBegin (lit "b") true)) _ (de_builtin _ _ _ _ _ (bc_begin_s _)) _).
      refine (tk_tag _ [] _ _ _ (TFun (FFor f)) _ (de_builtin _ _ _ _ _ (bc_for (lit "p") _ _ _ [] (fs_dir (lit "posts")) (Forall_nil _) _ _ _)) _); try (cbn; lia).
      refine (tk_tag _ [] _ _ _ (TVar (lit "p.t")) _ (de_var _ _) _).
      refine (tk_tag _ (lit ";") _ _ _ (TFun (FEnd (lit "for") false)) _ (de_builtin _ _ _ _ _ (bc_end_i _)) _).
      refine (tk_tag _ [] _ _ _ (TFun (FEnd (lit "b") true)) _ (de_builtin _ _ _ _ _ (bc_end_s _)) _). exact (tk_end _ []).
  - exists [], [], (enc (lit "<{{ insert(""b"") }}>")), (lit "<{{ insert(""b"") }}>"). split; [reflexivity|]. split.
    { eapply ea_child; [do 3 right; left; reflexivity|]. apply ea_here. }
    split; [intros a c e E; destruct a; [contradiction|discriminate]|]. split; [apply decoding; reflexivity|].
    exact C61_wrapper_written.
  - eexists. refine (pr_section _ _ _ (lit "b") _ [] _ [] (enc (lit "A;B;")) _ [] [] [] _ _ (pr_nil _ _ _ _ _)).
    refine (pr_for _ _ _ f _ [] _ [] [C61_values "A"; C61_values "B"] (C61_values "A") [C61_values "B"] (enc (lit "A;B;")) [] [] _ _ _ _ _ (pr_nil _ _ _ _ _)).
    + apply lv_dir; [reflexivity|]. exists [lit "posts"], C61_posts. split; [|split].
      * exists (lit "posts"), [[]]. split; [reflexivity|]. split; [repeat constructor; vm_compute; intuition discriminate|]. split; [discriminate|].
        apply pn_keep; try discriminate. apply pn_skip; [now left|apply pn_nil].
      * eapply ea_child; [do 2 right; left; reflexivity|]. apply ea_here.
      * apply ep_post; [exists (lit "a"); split; [reflexivity|]; split; [discriminate|vm_compute; intuition discriminate]|apply C61_one_post; now left|].
        apply ep_post; [exists (lit "b"); split; [reflexivity|]; split; [discriminate|vm_compute; intuition discriminate]|apply C61_one_post; now right|]. apply ep_nil.
    + exists [C61_values "A"; C61_values "B"], [C61_values "A"; C61_values "B"]. split; [reflexivity|]. split; [reflexivity|]. split; [discriminate|].
      exists [], [C61_values "A"; C61_values "B"], []. now repeat split.
    + assert (P : forall title, title = "A"%string \/ title = "B"%string -> exists new,
        prints None (site_json C61_host C61_content) (site_posts C61_host [] (page_vars [] (lit "production")) C61_content)
          [BVar (lit "p.t"); BText (lit ";")] ([(lit "p", C61_values title)] :: [[]; page_vars [] (lit "production")]) [] (enc (lit title) ++ enc (lit ";") ++ []) new []).
      { intros title TT. eexists. eapply pr_simple; [|eapply pr_simple; [|apply pr_nil]].
        - apply sh_var with (lit title); [|apply decoding; destruct TT as [-> | ->]; reflexivity].
          exists (lit "p"), [lit "t"], (C61_values title). split; [reflexivity|]. split; [vm_compute; intuition discriminate|]. split; [repeat constructor; vm_compute; intuition discriminate|].
          split; [exists [], [(lit "p", C61_values title)], [[]; page_vars [] (lit "production")]; split; [reflexivity|]; split; [exists [], []; split; [reflexivity|intros []]|constructor]|].
          apply fd_step with (VStr (lit title)); [|constructor]. apply st_key. exists [], [(lit "content", VStr (lit "<p>hi</p>")); (lit "markdown", VStr (lit "hi"))]. split; [reflexivity|intros []].
        - apply sh_text, decoding; reflexivity. }
      destruct (P "A"%string (or_introl eq_refl)) as [n1 P1]. destruct (P "B"%string (or_intror eq_refl)) as [n2 P2].
      exact (rp_cons _ _ _ _ _ _ _ _ _ _ n1 [] _ [] P1 (rp_cons _ _ _ _ _ _ _ _ _ _ n2 [] _ [] P2 (rp_nil _ _ _ _ _ _ _))).
  - exists []. refine (pr_simple _ _ _ (BText (lit "<")) _ _ [] _ (enc (lit "<")) [] (enc (lit "A;B;>")) [] _ _ _); [apply sh_text, decoding; reflexivity|].
    refine (pr_simple _ _ _ (BInsert (lit "b")) _ _ [] _ (enc (lit "A;B;")) [] (enc (lit ">")) [] _ _ _); [apply sh_insert; exists [], []; split; [reflexivity|intros []]|].
    refine (pr_simple _ _ _ (BText (lit ">")) _ _ [] _ (enc (lit ">")) [] [] [] _ _ (pr_nil _ _ _ _ _)). apply sh_text, decoding; reflexivity.
Qed.
Example C61_listed : published C61_host [] (page_vars [] (lit "production")) C61_content [] (lit "list.html") (enc (lit "<A;B;>")).
Proof. exists (lit "list.html"), (enc (lit C61_page)). split; [eapply ea_child; [left; reflexivity|]; apply ea_here|exact C61_listed_page]. Qed.
Example C61_disk : ent := EDir [(lit "p", EDir [(lit "stuart.toml", EFile []); (lit "content", C61_content)])].
Example C61_machine : machine := Machine C61_host (fun _ => []) [] (fun _ d => (d, ScriptOk)).
Example C61_project : context := Context (stuart_new (Config (lit "n") None true false false) []) [] [] (lit "production") [lit "p"] (lit "dist").
Example C61_case : exists c' d', cli_build C61_machine no_faults C61_project C61_disk = (c', d', COk) /\
  ent_distinct C61_disk /\ lookup (cx_dir C61_project ++ [lit "content"]) C61_disk = Some C61_content /\
  saved_as (st_config (cx_stuart C61_project)) [] (lit "list.html") [lit "list"; lit "index.html"] /\
  what [lit "p"; lit "dist"; lit "list"; lit "index.html"] d' = KFile (enc (lit "<A;B;>")).
Proof.
  do 2 eexists. split; [vm_compute; reflexivity|]. split.
  { repeat first [apply ed_file|apply ed_dir|constructor]; vm_compute; intuition discriminate. }
  split; [reflexivity|]. split; [|reflexivity]. apply (sa_page _ [] _ (lit "list")).
  - repeat split; discriminate.
  - repeat split; try discriminate. vm_compute. intuition discriminate.
Qed.

(** ** C62 *)
(** A site in order is built: no loop, no error, no panic. *)
Theorem C62_builds : forall h osenv mode d st content, sd_ent d = Some content -> ent_distinct content ->
  site_in_order h (st_plugins st) (page_vars osenv mode) content ->
  snd (build h osenv mode d st) = Ok tt.
Proof. exact site_builds. Qed.
Print Assumptions C62_builds.
(** The files of the output are the pages of the site: all of them and nothing else. *)
Theorem C62_files : forall h osenv mode d st content out, snd (build h osenv mode d st) = Ok tt ->
  st_output (fst (build h osenv mode d st)) = Some out -> sd_ent d = Some content -> ent_distinct content ->
  site_in_order h (st_plugins st) (page_vars osenv mode) content ->
  forall ks name o, (exists pc m src, at_names out (ks ++ [name]) (NFile name o pc m src)) <->
    published h (st_plugins st) (page_vars osenv mode) content ks name o.
Proof. exact site_files. Qed.
Print Assumptions C62_files.
(** On the disk: building the project succeeds, and the files of the output directory are the pages
    of the site, the static files, and nothing else. *)
Theorem C62_project : forall m c d content statics, cx_pre c = [] -> cx_post c = [] -> cf_meta (st_config (cx_stuart c)) = false ->
  lookup (cx_dir c ++ [lit "content"]) d = Some content ->
  lookup (cx_dir c ++ [lit "static"]) d = Some statics \/ (lookup (cx_dir c ++ [lit "static"]) d = None /\ statics = EDir []) ->
  lookup (cx_dir c ++ [lit "temp"]) d = None ->
  ent_distinct d -> inward_project c d ->
  site_in_order (m_host m) (st_plugins (cx_stuart c)) (page_vars (m_osenv m) (cx_mode c)) content -> static_in_order statics ->
  no_conflict (m_host m) (st_plugins (cx_stuart c)) (page_vars (m_osenv m) (cx_mode c)) content statics ->
  no_overlap (m_host m) (st_plugins (cx_stuart c)) (page_vars (m_osenv m) (cx_mode c)) content (st_config (cx_stuart c)) statics ->
  output_dir c <> [] -> what (parent (output_dir c)) d = KDir -> what (output_dir c) d = KNone \/ what (output_dir c) d = KDir ->
  exists c' d', cli_build m no_faults c d = (c', d', COk) /\ forall q o,
    what (output_dir c ++ q) d' = KFile o <->
    file_at (m_host m) (st_plugins (cx_stuart c)) (page_vars (m_osenv m) (cx_mode c)) content (st_config (cx_stuart c)) statics q o.
Proof. exact project_built. Qed.
Print Assumptions C62_project.

(** With scripts, a temporary directory and metadata: the pre-build scripts leave the disk [d1]; the files of the output directory are those that
    the content directory describes and those of the static and the temporary directory, which is removed; then the post-build scripts run. *)
Theorem C62_scripted : forall m c d d1 content statics temps both, ran (m_script m) (cx_pre c) d d1 ->
  lookup (cx_dir c ++ [lit "content"]) d1 = Some content ->
  present (cx_dir c ++ [lit "static"]) d1 statics -> present (cx_dir c ++ [lit "temp"]) d1 temps ->
  ent_distinct d1 -> inward_project c d1 ->
  site_in_order (m_host m) (st_plugins (cx_stuart c)) (page_vars (m_osenv m) (cx_mode c)) content ->
  static_in_order statics -> static_in_order temps -> share_dirs statics temps -> overlay statics temps both ->
  no_conflict (m_host m) (st_plugins (cx_stuart c)) (page_vars (m_osenv m) (cx_mode c)) content both ->
  no_overlap (m_host m) (st_plugins (cx_stuart c)) (page_vars (m_osenv m) (cx_mode c)) content (st_config (cx_stuart c)) both ->
  output_dir c <> [] -> what (parent (output_dir c)) d1 = KDir -> what (output_dir c) d1 = KNone \/ what (output_dir c) d1 = KDir ->
  lookup (cx_dir c ++ [lit "temp"]) d1 = None \/ ~ above (cx_dir c ++ [lit "temp"]) (output_dir c) ->
  (cf_meta (st_config (cx_stuart c)) = true -> (what (cx_dir c ++ [lit "metadata.json"]) d1 = KNone \/ exists b, what (cx_dir c ++ [lit "metadata.json"]) d1 = KFile b) /\
    ~ above (output_dir c) (cx_dir c ++ [lit "metadata.json"])) ->
  exists d2, (forall q o, what (output_dir c ++ q) d2 = KFile o <->
      file_at (m_host m) (st_plugins (cx_stuart c)) (page_vars (m_osenv m) (cx_mode c)) content (st_config (cx_stuart c)) both q o) /\
    (~ above (output_dir c) (cx_dir c ++ [lit "temp"]) -> what (cx_dir c ++ [lit "temp"]) d2 = KNone) /\
    (cf_meta (st_config (cx_stuart c)) = true -> exists v, what (cx_dir c ++ [lit "metadata.json"]) d2 = KFile (m_ser m v)) /\
    forall d3, ran (m_script m) (cx_post c) d2 d3 -> exists c', cli_build m no_faults c d = (c', d3, COk).
Proof. exact project_scripted. Qed.
Print Assumptions C62_scripted.

Example C62_post_template : text := lit "{{ begin(""b"") }}{{ $self.content }}{{ end(""b"") }}".
Example C62_post_written : written (fun _ => false) [] C62_post_template [BSection (lit "b") [BVar (lit "self.content")]].
Proof.
  assert (NP : can_precede_tag []) by (intros u c E; destruct u; discriminate).
  exists [([], GCall (lit "begin") [AStr (lit "b")] []); ([], GVar (lit "self.content")); ([], GCall (lit "end") [AStr (lit "b")] [])], []. split.
  - apply canonical. refine (tt_tag _ [] _ (lit " ") (lit "begin(""b"")") (lit " ") _ _ _ NP _ _ _ _); try reflexivity.
    { refine (tb_call _ (lit "begin") [] [AStr (lit "b")] [] (lit """b""") _ _ _ _ _); try reflexivity; try discriminate.
      - repeat constructor. vm_compute; intuition discriminate.
      - refine (at_one [] _ _ [] _ _ (pt_pos _ _ (ar_str (lit "b")))); reflexivity. }
    refine (tt_tag _ [] _ (lit " ") (lit "$self.content") (lit " ") _ _ _ NP _ _ _ _); try reflexivity.
    { apply tb_var; [discriminate|reflexivity]. }
    refine (tt_tag _ [] _ (lit " ") (lit "end(""b"")") (lit " ") _ _ _ NP _ _ _ (tt_end _ [])); try reflexivity.
    refine (tb_call _ (lit "end") [] [AStr (lit "b")] [] (lit """b""") _ _ _ _ _); try reflexivity; try discriminate.
    + repeat constructor. vm_compute; intuition discriminate.
    + refine (at_one [] _ _ [] _ _ (pt_pos _ _ (ar_str (lit "b")))); reflexivity.
  - refine (tk_tag _ [] _ _ _ (TFun (FBegin (lit "b") true)) _ (de_builtin _ _ _ _ _ (bc_begin_s _)) _).
    refine (tk_tag _ [] _ _ _ (TVar (lit "self.content")) _ (de_var _ _) _).
    refine (tk_tag _ [] _ _ _ (TFun (FEnd (lit "b") true)) _ (de_builtin _ _ _ _ _ (bc_end_s _)) _). exact (tk_end _ []).
Qed.
(** The entries of the site. *)
Example C62_entries ks e : ent_at C61_content ks e ->
  (ks, e) = ([], C61_content) \/ (ks, e) = ([lit "list.html"], C61_file C61_page) \/ (ks, e) = ([lit "md.html"], EFile (enc C62_post_template)) \/
  (ks, e) = ([lit "posts"], EDir C61_posts) \/ (ks, e) = ([lit "posts"; lit "a.md"], C61_file (C61_post "A")) \/
  (ks, e) = ([lit "posts"; lit "b.md"], C61_file (C61_post "B")) \/ (ks, e) = ([lit "root.html"], C61_file "<{{ insert(""b"") }}>").
Proof.
  intros A. inversion A as [|? k x ks' ? J A']; subst; [now left|]. right.
  destruct J as [J|[J|[J|[J|[]]]]]; injection J as <- <-; try (inversion A'; subst; tauto).
  inversion A' as [|? k x ks'' ? J A'']; subst; [tauto|]. destruct J as [J|[J|[]]]; injection J as <- <-; inversion A''; subst; tauto.
Qed.
Example C62_post_page title : title = "A"%string \/ title = "B"%string -> forall stem, stem <> [] ->
  page_of_file C61_host [] (page_vars [] (lit "production")) C61_content [lit "posts"] (stem ++ lit ".md") (enc (lit (C61_post title)))
    (stem ++ lit ".html") (enc (lit "<<p>hi</p>>")).
Proof.
  intros TT stem NE.
  refine (pf_md _ _ _ _ [lit "posts"] stem _ (C61_values title) [BSection (lit "b") [BVar (lit "self.content")]]
    [BText (lit "<"); BInsert (lit "b"); BText (lit ">")] (enc (lit "<p>hi</p>")) [(lit "b", enc (lit "<p>hi</p>"))] _ [(lit "b", enc (lit "<p>hi</p>"))] NE _ _ _ _ _).
  - now apply C61_one_post.
  - exists [], [lit "posts"], (enc C62_post_template), C62_post_template. split; [reflexivity|]. split; [eapply ea_child; [do 1 right; left; reflexivity|]; apply ea_here|].
    split; [|split; [apply decoding; reflexivity|exact C62_post_written]].
    intros a c e E NA A. apply C62_entries in A. destruct a as [|x [|y a]]; [contradiction|injection E as E1 E2; subst x|discriminate]. intuition discriminate.
  - exists [], [lit "posts"], (enc (lit "<{{ insert(""b"") }}>")), (lit "<{{ insert(""b"") }}>"). split; [reflexivity|]. split; [eapply ea_child; [do 3 right; left; reflexivity|]; apply ea_here|].
    split; [|split; [apply decoding; reflexivity|exact C61_wrapper_written]].
    intros a c e E NA A. apply C62_entries in A. destruct a as [|x [|y a]]; [contradiction|injection E as E1 E2; subst x|discriminate]. intuition discriminate.
  - exists []. refine (pr_section _ _ _ (lit "b") _ [] _ [] (enc (lit "<p>hi</p>")) _ [] [] [] _ _ (pr_nil _ _ _ _ _)).
    refine (pr_simple _ _ _ (BVar (lit "self.content")) _ _ _ _ (enc (lit "<p>hi</p>")) [] [] [] _ _ (pr_nil _ _ _ _ _)).
    apply sh_var with (lit "<p>hi</p>"); [|apply decoding; reflexivity].
    exists (lit "self"), [lit "content"], (C61_values title). split; [reflexivity|]. split; [vm_compute; intuition discriminate|]. split; [repeat constructor; vm_compute; intuition discriminate|].
    split.
    + exists [[]], (page_vars [] (lit "production") ++ [(lit "self", C61_values title)]), []. split; [reflexivity|]. split; [|repeat constructor; intros []].
      exists (page_vars [] (lit "production")), []. split; [reflexivity|vm_compute; intuition discriminate].
    + apply fd_step with (VStr (lit "<p>hi</p>")); [|constructor]. apply st_key. exists [(lit "t", VStr (lit title))], [(lit "markdown", VStr (lit "hi"))].
      split; [reflexivity|vm_compute; intuition discriminate].
  - exists []. refine (pr_simple _ _ _ (BText (lit "<")) _ _ [] _ (enc (lit "<")) [] (enc (lit "<p>hi</p>>")) [] _ _ _); [apply sh_text, decoding; reflexivity|].
    refine (pr_simple _ _ _ (BInsert (lit "b")) _ _ [] _ (enc (lit "<p>hi</p>")) [] (enc (lit ">")) [] _ _ _); [apply sh_insert; exists [], []; split; [reflexivity|intros []]|].
    refine (pr_simple _ _ _ (BText (lit ">")) _ _ [] _ (enc (lit ">")) [] [] [] _ _ (pr_nil _ _ _ _ _)). apply sh_text, decoding; reflexivity.
Qed.
Example C62_in_order : site_in_order C61_host [] (page_vars [] (lit "production")) C61_content.
Proof.
  split; [eexists; reflexivity|]. split; [intros ks A; apply C62_entries in A; intuition discriminate|]. intros ks name b A. apply C62_entries in A.
  assert (NJ : forall s, last s 0%N <> 110%N -> ~ has_ext s (lit "json")).
  { intros s L (u & E & _). apply L. rewrite E. clear. induction u as [|x u IH]; [reflexivity|]. cbn [app last]. now destruct (u ++ _) eqn:Q; [destruct u|]. }
  assert (NT : forall s, last s 0%N <> 108%N -> ~ is_template s).
  { intros s L [E|E]; apply L; now rewrite E. }
  destruct A as [A|[A|[A|[A|[A|[A|A]]]]]]; apply pair_equal_spec in A; destruct A as [A1 A2]; try discriminate A2; apply (app_inj_tail ks []) in A1 || apply (app_inj_tail ks [_]) in A1;
    destruct A1 as [-> ->]; injection A2 as ->; (split; [|split; [|intros X; exfalso; revert X; apply NJ; discriminate]]).
  - do 2 eexists. exact C61_listed_page.
  - intros [X|X]; discriminate.
  - do 2 eexists. apply pf_copy. left. now right.
  - intros _. do 2 eexists. split; [|exact C62_post_written]. apply decoding; reflexivity.
  - do 2 eexists. apply (C62_post_page "A" (or_introl eq_refl) (lit "a")). discriminate.
  - intros X; exfalso; revert X; apply NT; discriminate.
  - do 2 eexists. apply (C62_post_page "B" (or_intror eq_refl) (lit "b")). discriminate.
  - intros X; exfalso; revert X; apply NT; discriminate.
  - do 2 eexists. apply pf_copy. left. now left.
  - intros _. do 2 eexists. split; [|exact C61_wrapper_written]. apply decoding; reflexivity.
Qed.
(** The files of its output. *)
Example C62_pages ks name o : published C61_host [] (page_vars [] (lit "production")) C61_content ks name o ->
  is_template name \/ (ks, name, o) = ([], lit "list.html", enc (lit "<A;B;>")) \/
  (ks, name, o) = ([lit "posts"], lit "a.html", enc (lit "<<p>hi</p>>")) \/ (ks, name, o) = ([lit "posts"], lit "b.html", enc (lit "<<p>hi</p>>")).
Proof.
  assert (D : ent_distinct C61_content) by (repeat first [apply ed_file|apply ed_dir|constructor]; vm_compute; intuition discriminate).
  intros P.
  let x := eval vm_compute in (st_output (fst (build C61_host [] (lit "production") (SourceDir [] [] (Some C61_content)) (stuart_new (Config (lit "n") None true false false) [])))) in
  match x with Some ?out =>
    apply (proj2 (C62_files C61_host [] (lit "production") (SourceDir [] [] (Some C61_content)) (stuart_new (Config (lit "n") None true false false) []) C61_content out
      (C62_builds C61_host [] (lit "production") (SourceDir [] [] (Some C61_content)) (stuart_new (Config (lit "n") None true false false) []) C61_content eq_refl D C62_in_order) ltac:(vm_compute; reflexivity) eq_refl D C62_in_order ks name o)) in P end.
  destruct P as (pc & m & src & A). remember (ks ++ [name]) as kk eqn:K.
  inversion A as [|? ? ? c ks' ? J A']; subst. clear A. match goal with H : _ :: _ = ks ++ [name] |- _ => rename H into K end.
  destruct J as [<-|[<-|[<-|[<-|[]]]]]; cbn [n_name] in K.
  - inversion A'; subst. apply (app_inj_tail [] ks) in K. destruct K as [<- _]. right; left. reflexivity.
  - inversion A'; subst. left. now right.
  - inversion A' as [|? ? ? c ks'' ? J A'']; subst. destruct J as [<-|[<-|[]]]; cbn [n_name] in K; inversion A''; subst; apply (app_inj_tail [_] ks) in K; destruct K as [<- _]; right; right; [left|right]; reflexivity.
  - inversion A'; subst. left. now left.
Qed.
Example C62_saved meta q o : page_at C61_host [] (page_vars [] (lit "production")) C61_content (Config (lit "n") None true false meta) q o ->
  (q, o) = ([lit "list"; lit "index.html"], enc (lit "<A;B;>")) \/
  (q, o) = ([lit "posts"; lit "a"; lit "index.html"], enc (lit "<<p>hi</p>>")) \/ (q, o) = ([lit "posts"; lit "b"; lit "index.html"], enc (lit "<<p>hi</p>>")).
Proof.
  assert (ST : forall s name, stripped (Config (lit "n") None true false meta) name PNone s <-> name <> lit "index.html" /\ name = s ++ lit ".html").
  { intros s name. split; [now intros (_ & ? & _ & ?)|]. intros [? ?]. now repeat split. }
  intros (ks & name & P & H & S). apply C62_pages in P.
  destruct P as [P|P]; [destruct H; now left|].
  assert (C : exists s, s <> [] /\ s <> [c_dot] /\ name = s ++ lit ".html" /\ name <> lit "index.html" /\ ((ks, s, o) = ([], lit "list", enc (lit "<A;B;>")) \/
    (ks, s, o) = ([lit "posts"], lit "a", enc (lit "<<p>hi</p>>")) \/ (ks, s, o) = ([lit "posts"], lit "b", enc (lit "<<p>hi</p>>")))).
  { destruct P as [P|[P|P]]; apply pair_equal_spec in P; destruct P as [P ->]; apply pair_equal_spec in P; destruct P as [-> ->];
      [exists (lit "list")|exists (lit "a")|exists (lit "b")]; repeat (split; [discriminate || reflexivity|]); tauto. }
  destruct C as (s & N1 & N2 & -> & N3 & C). inversion S as [? s' Q|? s' Q E|? Q]; subst.
  - apply ST in Q. destruct Q as [_ Q]. apply app_inv_tail in Q. subst s'. destruct C as [C|[C|C]]; injection C as -> -> ->; tauto.
  - apply ST in Q. destruct Q as [_ Q]. apply app_inv_tail in Q. subst s'. destruct E; contradiction.
  - destruct (Q s). now apply ST.
Qed.
Example C62_statics : ent := EDir [(lit "posts", EDir [(lit "a.png", EFile [137%N])]); (lit "style.css", EFile (enc (lit "p {}")))].
Example C62_static_entries ks e : ent_at C62_statics ks e ->
  (ks, e) = ([], C62_statics) \/ (ks, e) = ([lit "posts"], EDir [(lit "a.png", EFile [137%N])]) \/
  (ks, e) = ([lit "posts"; lit "a.png"], EFile [137%N]) \/ (ks, e) = ([lit "style.css"], EFile (enc (lit "p {}"))).
Proof.
  intros A. inversion A as [|? k x ks' ? J A']; subst; [now left|]. right.
  destruct J as [J|[J|[]]]; injection J as <- <-; [|inversion A'; subst; tauto].
  inversion A' as [|? k x ks'' ? J A'']; subst; [tauto|]. destruct J as [J|[]]; injection J as <- <-; inversion A''; subst; tauto.
Qed.
Example C62_files_at meta q o : file_at C61_host [] (page_vars [] (lit "production")) C61_content (Config (lit "n") None true false meta) C62_statics q o ->
  (q, o) = ([lit "list"; lit "index.html"], enc (lit "<A;B;>")) \/
  (q, o) = ([lit "posts"; lit "a"; lit "index.html"], enc (lit "<<p>hi</p>>")) \/ (q, o) = ([lit "posts"; lit "b"; lit "index.html"], enc (lit "<<p>hi</p>>")) \/
  (q, o) = ([lit "posts"; lit "a.png"], [137%N]) \/ (q, o) = ([lit "style.css"], enc (lit "p {}")).
Proof.
  intros [P|[P _]]; [apply C62_saved in P; tauto|]. apply C62_static_entries in P.
  destruct P as [P|[P|[P|P]]]; apply pair_equal_spec in P; destruct P as [-> P]; try discriminate; injection P as ->; tauto.
Qed.
Example C62_no_overlap meta : no_overlap C61_host [] (page_vars [] (lit "production")) C61_content (Config (lit "n") None true false meta) C62_statics.
Proof.
  split.
  - intros q o o' P P'. apply C62_files_at in P, P'. destruct P as [P|[P|[P|[P|P]]]], P' as [P'|[P'|[P'|[P'|P']]]]; congruence || (apply pair_equal_spec in P, P'; destruct P as [-> _], P' as [E _]; discriminate E).
  - intros q o P D. apply C62_files_at in P. destruct D as [[[l A]|(ks & name & o' & stem & Pb & H & (_ & _ & _ & S) & E)]|[l A]].
    + apply C62_entries in A. destruct P as [P|[P|[P|[P|P]]]]; apply pair_equal_spec in P; destruct P as [-> _]; intuition discriminate.
    + assert (L : last q [] = lit "index.html" \/ last q [] = lit "a.png" \/ last q [] = lit "style.css").
      { destruct P as [P|[P|[P|[P|P]]]]; apply pair_equal_spec in P; destruct P as [-> _]; tauto. }
      rewrite E, last_last in L. apply C62_pages in Pb. destruct Pb as [Pb|Pb]; [apply H; now left|]. subst name.
      destruct L as [-> |[-> | ->]];
      destruct Pb as [Pb|[Pb|Pb]]; apply pair_equal_spec in Pb; destruct Pb as [Pb _]; apply pair_equal_spec in Pb; destruct Pb as [_ Pb]; discriminate Pb.
    + apply C62_static_entries in A. destruct P as [P|[P|[P|[P|P]]]]; apply pair_equal_spec in P; destruct P as [-> _]; intuition discriminate.
Qed.
Example C62_no_conflict : no_conflict C61_host [] (page_vars [] (lit "production")) C61_content C62_statics.
Proof.
  split.
  - intros ks name e o A P. apply C62_static_entries in A. apply C62_pages in P. assert (NT : ~ is_template name).
    { intros T. destruct A as [A|[A|[A|A]]]; apply pair_equal_spec in A; destruct A as [A _]; [destruct ks; discriminate|apply (app_inj_tail ks []) in A|apply (app_inj_tail ks [_]) in A|apply (app_inj_tail ks []) in A]; destruct A as [_ ->]; destruct T; discriminate. }
    destruct P as [P|P]; [contradiction|]. destruct P as [P|[P|P]]; apply pair_equal_spec in P; destruct P as [P _]; apply pair_equal_spec in P; destruct P as [-> ->];
      destruct A as [A|[A|[A|A]]]; apply pair_equal_spec in A; destruct A as [A _]; discriminate A.
  - intros ks b l A B. apply C62_static_entries in A. apply C62_entries in B. destruct A as [A|[A|[A|A]]]; apply pair_equal_spec in A; destruct A as [-> A]; try discriminate A; intuition discriminate.
Qed.
Example C62_disk : ent := EDir [(lit "p", EDir [(lit "stuart.toml", EFile []); (lit "content", C61_content); (lit "static", C62_statics); (lit "dist", EDir [(lit "old", EFile [])])])].
Example C62_case : exists c' d', cli_build C61_machine no_faults C61_project C62_disk = (c', d', COk) /\ forall q o,
  what ([lit "p"; lit "dist"] ++ q) d' = KFile o <->
  file_at C61_host [] (page_vars [] (lit "production")) C61_content (st_config (cx_stuart C61_project)) C62_statics q o.
Proof.
  apply (C62_project C61_machine C61_project C62_disk C61_content C62_statics); try reflexivity.
  - now left.
  - repeat first [apply ed_file|apply ed_dir|constructor]; vm_compute; intuition discriminate.
  - split; [|split; [|split; [|reflexivity]]]; intros e L; vm_compute in L; try discriminate; injection L as <-;
      repeat first [constructor|discriminate|now vm_compute; intuition discriminate].
  - exact C62_in_order.
  - split; [eexists; reflexivity|]. intros ks A. apply C62_static_entries in A. intuition discriminate.
  - exact C62_no_conflict.
  - exact (C62_no_overlap false).
  - discriminate.
  - now right.
Qed.
(** A script that draws a picture, and one that touches the disk afterwards; metadata are saved. *)
Example C62_pictures : ent := EDir [(lit "posts", EDir [(lit "a.png", EFile [137%N])])].
Example C62_styles : ent := EDir [(lit "style.css", EFile (enc (lit "p {}")))].
Example C62_tools : machine := Machine C61_host (fun _ => enc (lit "{}")) [] (fun n d =>
  (update [lit "p"; n] (Some (if text_eqb n (lit "temp") then C62_pictures else EFile [])) d, ScriptOk)).
Example C62_tooled : context := Context (stuart_new (Config (lit "n") None true false true) []) [lit "temp"] [lit "done"] (lit "production") [lit "p"] (lit "dist").
Example C62_bare : ent := EDir [(lit "p", EDir [(lit "stuart.toml", EFile []); (lit "content", C61_content); (lit "static", C62_styles)])].
Example C62_style_entries ks e : ent_at C62_styles ks e -> (ks, e) = ([], C62_styles) \/ (ks, e) = ([lit "style.css"], EFile (enc (lit "p {}"))).
Proof. intros A. inversion A as [|? k x ks' ? J A']; subst; [now left|]. right. destruct J as [J|[]]. injection J as <- <-. inversion A'; subst. reflexivity. Qed.
Example C62_picture_entries ks e : ent_at C62_pictures ks e ->
  (ks, e) = ([], C62_pictures) \/ (ks, e) = ([lit "posts"], EDir [(lit "a.png", EFile [137%N])]) \/ (ks, e) = ([lit "posts"; lit "a.png"], EFile [137%N]).
Proof.
  intros A. inversion A as [|? k x ks' ? J A']; subst; [now left|]. right. destruct J as [J|[]]. injection J as <- <-.
  inversion A' as [|? k x ks'' ? J A'']; subst; [now left|]. right. destruct J as [J|[]]. injection J as <- <-. inversion A''; subst. reflexivity.
Qed.
Example C62_both : share_dirs C62_styles C62_pictures /\ overlay C62_styles C62_pictures C62_statics.
Proof.
  assert (HS : ent_at C62_styles [lit "style.css"] (EFile (enc (lit "p {}")))) by (econstructor; [now left|constructor]).
  assert (HP : ent_at C62_pictures [lit "posts"] (EDir [(lit "a.png", EFile [137%N])])) by (econstructor; [now left|constructor]).
  assert (HA : ent_at C62_pictures [lit "posts"; lit "a.png"] (EFile [137%N])) by (econstructor; [now left|econstructor; [now left|constructor]]).
  assert (ES : ent_at C62_statics [lit "style.css"] (EFile (enc (lit "p {}")))) by (econstructor; [right; now left|constructor]).
  assert (EP : ent_at C62_statics [lit "posts"] (EDir [(lit "a.png", EFile [137%N])])) by (econstructor; [now left|constructor]).
  assert (EA : ent_at C62_statics [lit "posts"; lit "a.png"] (EFile [137%N])) by (econstructor; [now left|econstructor; [now left|constructor]]).
  split; [|split].
  - intros ks x y A B. apply C62_style_entries in A. apply C62_picture_entries in B.
    destruct A as [A|A], B as [B|[B|B]]; apply pair_equal_spec in A, B; destruct A as [-> ->], B as [E ->]; try discriminate E. split; eexists; reflexivity.
  - intros ks b. split.
    + intros A. apply C62_static_entries in A. destruct A as [A|[A|[A|A]]]; apply pair_equal_spec in A; destruct A as [-> E]; try discriminate E; injection E as ->; tauto.
    + intros [A|A]; [apply C62_style_entries in A; destruct A as [A|A]|apply C62_picture_entries in A; destruct A as [A|[A|A]]]; apply pair_equal_spec in A; destruct A as [-> E]; try discriminate E; injection E as ->; assumption.
  - intros ks. split.
    + intros [l A]. apply C62_static_entries in A. destruct A as [A|[A|[A|A]]]; apply pair_equal_spec in A; destruct A as [-> E]; try discriminate E; [left|right]; eexists; [constructor|exact HP].
    + intros [[l A]|[l A]]; [apply C62_style_entries in A; destruct A as [A|A]|apply C62_picture_entries in A; destruct A as [A|[A|A]]]; apply pair_equal_spec in A; destruct A as [-> E]; try discriminate E;
        eexists; first [exact EP|constructor].
Qed.
Example C62_scripted_case : exists d1 d2 d3 c', ran (m_script C62_tools) [lit "temp"] C62_bare d1 /\ ran (m_script C62_tools) [lit "done"] d2 d3 /\
  cli_build C62_tools no_faults C62_tooled C62_bare = (c', d3, COk) /\
  (forall q o, what ([lit "p"; lit "dist"] ++ q) d2 = KFile o <->
    file_at C61_host [] (page_vars [] (lit "production")) C61_content (st_config (cx_stuart C62_tooled)) C62_statics q o) /\
  what [lit "p"; lit "temp"] d1 = KDir /\ what [lit "p"; lit "temp"] d2 = KNone /\ what [lit "p"; lit "metadata.json"] d2 = KFile (enc (lit "{}")).
Proof.
  set (d1 := fst (m_script C62_tools (lit "temp") C62_bare)).
  assert (R : ran (m_script C62_tools) [lit "temp"] C62_bare d1) by (econstructor; [reflexivity|constructor]).
  assert (OD : output_dir C62_tooled = [lit "p"; lit "dist"]) by reflexivity.
  destruct (C62_scripted C62_tools C62_tooled C62_bare d1 C61_content C62_styles C62_pictures C62_statics R) as (d2 & F & T & M & B).
  - reflexivity.
  - left. reflexivity.
  - left. reflexivity.
  - vm_compute. repeat first [apply ed_file|apply ed_dir|constructor]; vm_compute; intuition discriminate.
  - split; [|split; [|split; [|reflexivity]]]; intros e L; vm_compute in L; try discriminate; injection L as <-;
      repeat first [constructor|discriminate|now vm_compute; intuition discriminate].
  - exact C62_in_order.
  - split; [eexists; reflexivity|]. intros ks A. apply C62_style_entries in A. intuition discriminate.
  - split; [eexists; reflexivity|]. intros ks A. apply C62_picture_entries in A. intuition discriminate.
  - apply C62_both.
  - apply C62_both.
  - exact C62_no_conflict.
  - exact (C62_no_overlap true).
  - discriminate.
  - reflexivity.
  - now left.
  - right. rewrite OD. intros [r E]. discriminate E.
  - intros _. split; [now left|]. rewrite OD. intros [r E]. discriminate E.
  - rewrite OD in F, T. assert (R2 : ran (m_script C62_tools) [lit "done"] d2 (fst (m_script C62_tools (lit "done") d2))) by (econstructor; [reflexivity|constructor]).
    destruct (B _ R2) as [c' E]. exists d1, d2, (fst (m_script C62_tools (lit "done") d2)), c'. split; [exact R|]. split; [exact R2|]. split; [exact E|]. split; [exact F|].
    split; [reflexivity|]. split; [apply T; intros [r X]; discriminate X|]. destruct (M eq_refl) as [v Mv]. exact Mv.
Qed.
