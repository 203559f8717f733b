(** PropExact.v -- property C90: which sites can be built, exactly. *)

From Coq Require Import String List NArith ZArith Bool.
From Verif Require Import Text Utf8 Json Base Syntax Parse Tree Interp Build Disk Cli Js.
From Verif Require Import SpecJs SpecScope SpecUtf8 SpecRender SpecTemplate SpecLoop SpecBlocks SpecMarkdown SpecTree SpecDisk SpecProject SpecSite SpecExact.
From Verif Require Import Utf8Facts Utf8Run GrammarFacts SiteFacts PropJs PropSite ExactFacts.
Import ListNotations.

(** In memory: the build succeeds if, and only if, the site is in order. *)
Theorem C90_exactly : forall h osenv mode d st content, sd_ent d = Some content ->
  plain_site h (st_plugins st) osenv mode content ->
  (snd (build h osenv mode d st) = Ok tt <-> site_in_order h (st_plugins st) (page_vars osenv mode) content).
Proof. exact build_exactly. Qed.
Print Assumptions C90_exactly.
(** The files of the output of a build that succeeded are the pages of the site. *)
Theorem C90_pages : forall h osenv mode d st content out, sd_ent d = Some content ->
  plain_site h (st_plugins st) osenv mode content ->
  snd (build h osenv mode d st) = Ok tt -> st_output (fst (build h osenv mode d st)) = Some out ->
  forall ks name o, (exists pc m src, at_names out (ks ++ [name]) (NFile name o pc m src)) <->
    published h (st_plugins st) (page_vars osenv mode) content ks name o.
Proof. exact build_pages. Qed.
Print Assumptions C90_pages.
(** On the disk, whatever fails: a project whose build succeeded was in order. *)
Theorem C90_needed : forall m f c d c' d' d1 content, cli_build m f c d = (c', d', COk) -> ran (m_script m) (cx_pre c) d d1 ->
  lookup (cx_dir c ++ [lit "content"]) d1 = Some content ->
  plain_site (m_host m) (st_plugins (cx_stuart c)) (m_osenv m) (cx_mode c) content ->
  site_in_order (m_host m) (st_plugins (cx_stuart c)) (page_vars (m_osenv m) (cx_mode c)) content.
Proof. exact project_needs_order. Qed.
Print Assumptions C90_needed.
(** On the disk, if nothing fails: a project can be built if, and only if, it is in order. *)
Theorem C90_project : forall m c d content statics, cx_pre c = [] -> cx_post c = [] -> cf_meta (st_config (cx_stuart c)) = false ->
  lookup (cx_dir c ++ [lit "content"]) d = Some content ->
  lookup (cx_dir c ++ [lit "static"]) d = Some statics \/ (lookup (cx_dir c ++ [lit "static"]) d = None /\ statics = EDir []) ->
  lookup (cx_dir c ++ [lit "temp"]) d = None ->
  ent_distinct d -> inward_project c d -> static_in_order statics ->
  no_conflict (m_host m) (st_plugins (cx_stuart c)) (page_vars (m_osenv m) (cx_mode c)) content statics ->
  no_overlap (m_host m) (st_plugins (cx_stuart c)) (page_vars (m_osenv m) (cx_mode c)) content (st_config (cx_stuart c)) statics ->
  output_dir c <> [] -> what (parent (output_dir c)) d = KDir -> what (output_dir c) d = KNone \/ what (output_dir c) d = KDir ->
  plain_site (m_host m) (st_plugins (cx_stuart c)) (m_osenv m) (cx_mode c) content ->
  (snd (cli_build m no_faults c d) = COk <->
   site_in_order (m_host m) (st_plugins (cx_stuart c)) (page_vars (m_osenv m) (cx_mode c)) content).
Proof. exact project_exactly. Qed.
Print Assumptions C90_project.

(** A function written in JavaScript meets the conditions on functions, if the texts it makes up are
    made of scalar values. *)
Theorem C90_js : forall name code r p, pp_parse (js_plugin_parser name code) r = inr p -> scalar_call r ->
  (forall vs, Forall scalar_js vs -> scalar_prog (code vs)) -> tame p /\ scalar_plugin p.
Proof. intros name code r p E A C. split; [exact (js_tame name code r p E A C)|exact (js_scalar_fn name code r p E A C)]. Qed.
Print Assumptions C90_js.

(** The site of C61: a loop over posts, a section, a layout; it is in order (C62_in_order). *)
Example C90_host_scalar : scalar_host C61_host.
Proof.
  split; [|split; [intros; discriminate|intros; discriminate]]. intros t S. cbn. repeat (constructor; [left; reflexivity|]). apply Forall_app. split; [exact S|]. repeat (constructor; [left; reflexivity|]). constructor.
Qed.
Example C90_plain : plain_site C61_host [] [] (lit "production") C61_content.
Proof.
  split; [repeat first [apply ed_file|apply ed_dir|constructor]; vm_compute; intuition discriminate|]. split.
  - intros ks name b t s ts A. apply C62_entries in A.
    destruct A as [A|[A|[A|[A|[A|[A|A]]]]]]; apply pair_equal_spec in A; destruct A as [A1 A2]; try discriminate A2; apply (app_inj_tail ks []) in A1 || apply (app_inj_tail ks [_]) in A1;
      destruct A1 as [-> ->]; injection A2 as ->.
    + apply laid_html with (l := [BSection (lit "b") [BFor (ForFn (lit "p") (lit "posts/") SrcDir None None None false) [BVar (lit "p.t"); BText (lit ";")]]]);
        [exists (lit "list"); split; [reflexivity|]; split; [discriminate|vm_compute; intuition discriminate]|vm_compute; reflexivity|reflexivity].
    + apply laid_html with (l := [BSection (lit "b") [BVar (lit "self.content")]]); [exact md_ext|vm_compute; reflexivity|reflexivity].
    + apply laid_md with (l := [BText (lit "hi")]); [exists (lit "a"); split; [reflexivity|]; split; [discriminate|vm_compute; intuition discriminate]|vm_compute; reflexivity|reflexivity].
    + apply laid_md with (l := [BText (lit "hi")]); [exists (lit "b"); split; [reflexivity|]; split; [discriminate|vm_compute; intuition discriminate]|vm_compute; reflexivity|reflexivity].
    + apply laid_html with (l := [BText (lit "<"); BInsert (lit "b"); BText (lit ">")]); [exact root_ext|vm_compute; reflexivity|reflexivity].
  - split; [reflexivity|]. split; [exact C90_host_scalar|]. split; [intros ? ? ? ? []|]. split; [constructor|]. repeat (constructor; [left; reflexivity|]). constructor.
Qed.
Example C90_built : snd (build C61_host [] (lit "production") (SourceDir [] [] (Some C61_content)) (stuart_new (Config (lit "n") None true false false) [])) = Ok tt.
Proof. apply (C90_exactly C61_host [] (lit "production") (SourceDir [] [] (Some C61_content)) (stuart_new (Config (lit "n") None true false false) []) C61_content eq_refl C90_plain). exact C62_in_order. Qed.
(** A page that reads an undefined variable, in a branch of a conditional; that the site is not in
    order follows from the failing build. *)
Example C90_bad (x : string) : ent := EDir
  [(lit "index.html", C61_file ("{{ begin(""b"") }}{{ ifeq($env.STUART_ENV, ""production"") }}{{ $" ++ x ++ " }}{{ end(ifeq) }}{{ end(""b"") }}"));
   (lit "root.html", C61_file "{{ insert(""b"") }}")].
Example C90_bad_plain x : x = "title"%string \/ x = "env.STUART_ENV"%string -> plain_site C61_host [] [] (lit "production") (C90_bad x).
Proof.
  intros X. split; [repeat first [apply ed_file|apply ed_dir|constructor]; vm_compute; intuition discriminate|]. split.
  - intros ks name b t s ts A. inversion A as [|? k e ks' ? J A']; subst.
    destruct J as [J|[J|[]]]; injection J as <- <-; inversion A' as [Q|]; subst.
    + match goal with H : [_] = _ |- _ => apply (app_inj_tail [] ks) in H; destruct H as [<- <-] end.
      destruct X as [-> | ->].
      * apply laid_html with (l := [BSection (lit "b") [BIf (TCompare CEq (IVar (lit "env.STUART_ENV")) (IStr (lit "production"))) [BVar (lit "title")]]]);
          [exists (lit "index"); split; [reflexivity|]; split; [discriminate|vm_compute; intuition discriminate]|vm_compute; reflexivity|reflexivity].
      * apply laid_html with (l := [BSection (lit "b") [BIf (TCompare CEq (IVar (lit "env.STUART_ENV")) (IStr (lit "production"))) [BVar (lit "env.STUART_ENV")]]]);
          [exists (lit "index"); split; [reflexivity|]; split; [discriminate|vm_compute; intuition discriminate]|vm_compute; reflexivity|reflexivity].
    + match goal with H : [_] = _ |- _ => apply (app_inj_tail [] ks) in H; destruct H as [<- <-] end.
      apply laid_html with (l := [BInsert (lit "b")]); [exact root_ext|vm_compute; reflexivity|reflexivity].
  - split; [reflexivity|]. split; [exact C90_host_scalar|]. split; [intros ? ? ? ? []|]. split; [constructor|]. repeat (constructor; [left; reflexivity|]). constructor.
Qed.
Example C90_bad_order : ~ site_in_order C61_host [] (page_vars [] (lit "production")) (C90_bad "title") /\
  site_in_order C61_host [] (page_vars [] (lit "production")) (C90_bad "env.STUART_ENV").
Proof.
  split.
  - intros O. apply (C90_exactly C61_host [] (lit "production") (SourceDir [] [] (Some (C90_bad "title"))) (stuart_new (Config (lit "n") None true false false) []) _ eq_refl
      (C90_bad_plain _ (or_introl eq_refl))) in O. vm_compute in O. discriminate O.
  - apply (C90_exactly C61_host [] (lit "production") (SourceDir [] [] (Some (C90_bad "env.STUART_ENV"))) (stuart_new (Config (lit "n") None true false false) []) _ eq_refl
      (C90_bad_plain _ (or_intror eq_refl))). vm_compute. reflexivity.
Qed.
(** A page that calls two functions of a plugin: one written in JavaScript, which copies the variable
    [env] and prints its argument twice, and, in a conditional, one with a name. *)
Example C90_twice : js_code := fun vs => JsGet (lit "env") (fun v => JsSet (lit "copy") v (JsReturn (match vs with [JsStr t] => Some (t ++ t) | _ => None end))).
Example C90_plugin : plugin := Plugin (lit "p") [js_plugin_parser (lit "twice") C90_twice; PluginParser (lit "greet") (fun _ => inr greet)] [].
Example C90_calling : ent := EDir
  [(lit "index.html", C61_file "{{ begin(""b"") }}{{ twice(""ha"") }}{{ ifdefined($copy) }}{{ p::greet() }}{{ $copy.STUART_ENV }}{{ end(ifdefined) }}{{ end(""b"") }}");
   (lit "root.html", C61_file "{{ insert(""b"") }}")].
Example C90_twice_scalar : forall vs, Forall scalar_js vs -> scalar_prog (C90_twice vs).
Proof.
  intros vs F. apply sp_get. intros v V. apply sp_set; [exact V|]. apply sp_return. intros x E.
  destruct F as [|j l J F]; [discriminate E|]. destruct j; try discriminate E. destruct F; [|discriminate E]. injection E as <-. inversion J; subst. now apply Forall_app.
Qed.
Example C90_parsed (f : list rawarg -> plugin_fn) (g : plugin_fn) :
  let ps := [Plugin (lit "p") [PluginParser (lit "twice") (fun r => inr (f (rf_pos r))); PluginParser (lit "greet") (fun _ => inr g)] []] in
  match from_utf8 (enc (lit "{{ begin(""b"") }}{{ twice(""ha"") }}{{ ifdefined($copy) }}{{ p::greet() }}{{ $copy.STUART_ENV }}{{ end(ifdefined) }}{{ end(""b"") }}")) with
  | Some t =>
      match parse_html (fun _ => false) (fns ps) [] t with
      | Ok toks => map t_inner toks = flat_map tags [BSection (lit "b") [BPlugin (f [AStr (lit "ha")]); BIf (TDefined (lit "copy")) [BPlugin g; BVar (lit "copy.STUART_ENV")]]]
      | _ => False
      end
  | None => False
  end.
Proof. vm_compute. reflexivity. Qed.
Example C90_calling_plain : plain_site C61_host [C90_plugin] [] (lit "production") C90_calling.
Proof.
  assert (SC : scalars (lit "ha")) by (repeat (constructor; [left; reflexivity|]); constructor).
  assert (SH : scalars (lit "twice")) by (repeat (constructor; [left; reflexivity|]); constructor).
  split; [repeat first [apply ed_file|apply ed_dir|constructor]; vm_compute; intuition discriminate|]. split.
  - intros ks name b t s ts A. inversion A as [|? k e ks' ? J A']; subst.
    destruct J as [J|[J|[]]]; injection J as <- <-; inversion A' as [Q|]; subst.
    + match goal with H : [_] = _ |- _ => apply (app_inj_tail [] ks) in H; destruct H as [<- <-] end.
      apply laid_html_calls with (l := [BSection (lit "b") [BPlugin (PluginFn None (js_exec C90_twice [AStr (lit "ha")]) None);
        BIf (TDefined (lit "copy")) [BPlugin greet; BVar (lit "copy.STUART_ENV")]]]);
        [exists (lit "index"); split; [reflexivity|]; split; [discriminate|vm_compute; intuition discriminate]| |].
      { exact (C90_parsed (fun args => PluginFn None (js_exec C90_twice args) None) greet). }
      assert (Nm : named greet) by (exists (lit "greet"); split; [reflexivity|split; discriminate]).
      split; [reflexivity|]. split.
      * constructor; [|constructor]. split; [exact Logic.I|]. split; [|exact Logic.I]. split; [|now repeat split]. constructor; [exact Nm|]. constructor; [exact Logic.I|constructor].
      * intros p I. cbn [flat_map tags app In] in I. destruct I as [I|[I|[I|[I|[I|[I|[I|[]]]]]]]]; try discriminate I; injection I as <-.
        -- apply (C90_js (lit "twice") C90_twice (RawFn (lit "twice") [AStr (lit "ha")] [])); [reflexivity| |exact C90_twice_scalar].
           split; [exact SH|]. split; [now repeat constructor|constructor].
        -- split; [discriminate|]. split; [discriminate|]. exists (fun _ _ _ => Ok (enc (lit "hello"), [])). split; [exact (proj2 (proj1 C57_case))|]. split; [auto|].
           intros l sc secs o new _ E. injection E as _ <-. constructor.
    + match goal with H : [_] = _ |- _ => apply (app_inj_tail [] ks) in H; destruct H as [<- <-] end.
      apply laid_html with (l := [BInsert (lit "b")]); [exact root_ext|vm_compute; reflexivity|reflexivity].
  - split; [reflexivity|]. split; [exact C90_host_scalar|]. split; [|split; [constructor|]; repeat (constructor; [left; reflexivity|]); constructor].
    intros pl f raw g [<-|[]] [<-|[<-|[]]] R E; [exact (proj2 (C90_js _ _ _ _ E R C90_twice_scalar))|]. injection E as <-.
    intros l s s' [S1 S2] E. cbn in E. destruct (sc_stack s) as [|f st] eqn:ST; unfold output in E; rewrite ST in E; [discriminate E|]. injection E as <-.
    inversion S1 as [|? ? [F1 F2] F3]; subst. split; [|exact S2]. constructor; [|exact F3]. split; [exact F1|]. cbn [add_out fr_out]. apply utf8_app; [exact F2|].
    apply (Utf8Run.utf8_enc (lit "hello")). repeat (constructor; [left; reflexivity|]). constructor.
Qed.
Example C90_calling_case : site_in_order C61_host [C90_plugin] (page_vars [] (lit "production")) C90_calling /\
  match st_output (fst (build C61_host [] (lit "production") (SourceDir [] [] (Some C90_calling)) (stuart_new (Config (lit "n") None true false false) [C90_plugin]))) with
  | Some out => match get_at_path out (lit "index.html") with Some (NFile _ b _ _ _) => b = enc (lit "hahahelloproduction") | _ => False end
  | None => False
  end.
Proof.
  split.
  - apply (C90_exactly C61_host [] (lit "production") (SourceDir [] [] (Some C90_calling)) (stuart_new (Config (lit "n") None true false false) [C90_plugin]) _ eq_refl C90_calling_plain).
    vm_compute. reflexivity.
  - vm_compute. reflexivity.
Qed.
(** The condition on loops cannot be dropped: with a loop inside another one the build says
    something other than what the blocks say (C22, C23). *)
