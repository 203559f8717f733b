(** PropTree.v -- properties C34 to C38 and C45 to C47: trees of files and builds of them. *)

From Coq Require Import String List NArith ZArith Bool Lia Permutation.
From Verif Require Import Text Utf8 Json Base Syntax Parse Tree Interp Build Disk SpecScope SpecPage SpecTree SpecDisk.
From Verif Require Import TreeFacts PathFacts MergeFacts BuildTotal BuilderFacts ProgramFacts.
Import ListNotations.

(** A content directory for the examples. *)
Example site : ent := EDir
  [(lit "post.md", EFile (enc (lit "Hello")));
   (lit "root.html", EFile (enc (lit "[{{ insert(""b"") }}]")));
   (lit "sub", EDir [(lit "style.css", EFile (enc (lit "p {{")));
                     (lit "page.html", EFile (enc (lit "{{ begin(""b"") }}x{{ end(""b"") }}")));
                     (lit "root.html", EFile (enc (lit "<{{ insert(""b"") }}>")))]);
   (lit "md.html", EFile (enc (lit "{{ begin(""b"") }}{{ $self.content }}{{ end(""b"") }}")));
   (lit "d.json", EFile (enc (lit "1")))].
Example plain_host : host := Host (fun _ => false) (fun t => t) None (fun _ => Some (VStr (lit "data"))).
Example site_dir (e : ent) : source_dir := SourceDir [lit "c"] (lit "c") (Some e).

(** ** C34 *)
Theorem C34_mirrors : forall h osenv mode d st out, snd (build h osenv mode d st) = Ok tt ->
  st_output (fst (build h osenv mode d st)) = Some out ->
  exists e, sd_ent d = Some e /\ built_from (st_plugins st) (sd_name d) e out.
Proof. exact built_output. Qed.
Print Assumptions C34_mirrors.
(** What is in the pages: the templates and the markdown bodies of the tree as loaded. *)
Theorem C34_contents : forall h meta vars input input' out, build_tree h meta vars input = Ok (input', out) ->
  (forall m, inside m input -> plugins_of plugin_ok (match n_parsed m with PMarkdown x => md_tokens x | _ => [] end)) ->
  mirror (preprocessed (build_pr h meta vars input)) [] input input' /\
  mirror (publishes (build_pr h meta vars input') vars) [] input' out.
Proof. exact tree_mirror. Qed.
Print Assumptions C34_contents.
Theorem C34_loaded : forall h ps parse e p name n, create_from h ps parse p name e = Ok n -> loaded name e n.
Proof. exact create_loaded. Qed.
Print Assumptions C34_loaded.
Example C34_case : exists out,
  let r := build plain_host [] (lit "production") (site_dir site) (stuart_new config_default []) in
  snd r = Ok tt /\ st_output (fst r) = Some out /\
  option_map (map n_name) (n_children out) = Some [lit "post.html"; lit "root.html"; lit "sub"; lit "md.html"; lit "d.json"] /\
  option_map n_contents (get_at_path out (lit "post.html")) = Some (Some (enc (lit "[Hello]"))) /\
  option_map n_contents (get_at_path out (lit "sub/style.css")) = Some (Some (enc (lit "p {{"))).
Proof. eexists. vm_compute. now repeat split. Qed.

(** ** C35 *)
(** [publishes] in C34_contents renders every page with the templates that [template_of] gives;
    these are the only ones, whatever the order of the entries. *)
Theorem C35_nearest : forall name anc, Forall (fun ch => NoDup (map n_name ch)) anc ->
  exists t, template_of name anc t /\ forall t', template_of name anc t' -> t = t'.
Proof. exact (fun name anc D => let (t, H) := template_exists name anc in ex_intro _ t (conj H (template_unique name anc t D H))). Qed.
Print Assumptions C35_nearest.
Theorem C35_order : forall name anc anc' t, Forall2 (@Permutation node) anc anc' -> template_of name anc t -> template_of name anc' t.
Proof. exact template_order. Qed.
Print Assumptions C35_order.
Theorem C35_distinct : forall h ps parse p name e n, ent_distinct e -> create_from h ps parse p name e = Ok n -> distinct n.
Proof. exact load_distinct. Qed.
Print Assumptions C35_distinct.
Theorem C35_missing : forall h meta vars input input' out anc f p, build_tree h meta vars input = Ok (input', out) ->
  (forall m, inside m input -> plugins_of plugin_ok (match n_parsed m with PMarkdown x => md_tokens x | _ => [] end)) ->
  distinct input' -> found input' anc f -> page_of f p -> ~ template_of (lit "root.html") anc None.
Proof. exact no_root. Qed.
Print Assumptions C35_missing.
Theorem C35_missing_error : forall pr vars anc f p x, Forall (fun ch => NoDup (map n_name ch)) anc -> page_of f p ->
  template_of (lit "root.html") anc None -> fails pr vars anc f x -> x = E_Process (TB (n_source f) 0 0 XE_MissingHtmlRoot).
Proof. exact missing_root_error. Qed.
Print Assumptions C35_missing_error.
Theorem C35_blame : forall h meta vars input x, build_tree h meta vars input = Err x ->
  (exists name b m me src y, inside (NFile name b (PMarkdown m) me src) input /\
     preprocess_markdown (build_pr h meta vars input) src m = Err y /\ x = E_Process y) \/
  (exists input' anc f, preprocess (build_pr h meta vars input) input = Ok input' /\ found input' anc f /\
     fails (build_pr h meta vars input') vars anc f x).
Proof. exact tree_fails. Qed.
Print Assumptions C35_blame.
(** The inner root template is used although it is listed after the page. *)
Example C35_case : exists out,
  let r := build plain_host [] (lit "production") (site_dir site) (stuart_new config_default []) in
  st_output (fst r) = Some out /\
  option_map n_contents (get_at_path out (lit "sub/page.html")) = Some (Some (enc (lit "<x>"))).
Proof. eexists. vm_compute. now repeat split. Qed.
Example C35_missing_case :
  snd (build plain_host [] (lit "production") (site_dir (EDir [(lit "s", EDir [(lit "root.html", EFile [])]); (lit "a.html", EFile [])]))
    (stuart_new config_default [])) = Err (E_Process (TB [lit "c"; lit "a.html"] 0 0 XE_MissingHtmlRoot)).
Proof. now vm_compute. Qed.

(** ** C36: a markdown body with a loop over a directory with markdown files, or an open quote at
    the end of a file, ... *)
Theorem C36_total_refuted : exists h osenv mode d p,
  snd (build h osenv mode d (stuart_new config_default [])) = Panic p /\
  d = site_dir (EDir [(lit "index.md", EFile (enc (lit "{{ for($p, ""posts/"") }}{{ end(for) }}")));
                      (lit "posts", EDir [(lit "a.md", EFile [])])]).
Proof. exists plain_host, [], (lit "production"). eexists. eexists. split; [|reflexivity]. vm_compute. reflexivity. Qed.
Print Assumptions C36_total_refuted.
Theorem C36_quote_refuted : exists h osenv mode d p,
  snd (build h osenv mode d (stuart_new config_default [])) = Panic p /\
  d = site_dir (EDir [(lit "index.html", EFile (enc (lit "{{ for("" ")))]).
Proof. exists plain_host, [], (lit "production"). eexists. eexists. split; [|reflexivity]. vm_compute. reflexivity. Qed.
Print Assumptions C36_quote_refuted.
(** What can be proved is in PropReads.v. *)

(** ** C37 *)
Theorem C37_resolves : forall t p n, distinct t -> (get_at_path t p = Some n <-> resolves t p n).
Proof. exact path_resolves. Qed.
Print Assumptions C37_resolves.
Theorem C37_inside : forall t p n, resolves t p n -> inside n t.
Proof. exact resolves_inside. Qed.
Print Assumptions C37_inside.
Theorem C37_absolute : forall t p n, ~ resolves t ([c_slash] ++ p) n.
Proof. exact absolute_unresolved. Qed.
Print Assumptions C37_absolute.
Theorem C37_parent : forall t hd tl n, Forall (fun k => ~ In c_slash k) (hd :: tl) -> In [c_dot; c_dot] (hd :: tl) ->
  ~ resolves t (slashed hd tl) n.
Proof. exact dotdot_unresolved. Qed.
Print Assumptions C37_parent.
Theorem C37_import : forall n w l x file s, distinct (w_input w) -> current w s = Some (LTok (TFun (FImport x file)) l) ->
  (forall m, ~ resolves (w_input w) file m) ->
  exec (S n) w (LTok (TFun (FImport x file)) l) s = Err (tb l (XE_NotFound file)).
Proof. exact import_missing. Qed.
Print Assumptions C37_import.
Theorem C37_for : forall n w l f s, distinct (w_input w) -> current w s = Some (LTok (TFun (FFor f)) l) -> ff_type f <> SrcVar ->
  (forall m, ~ resolves (w_input w) (ff_src f) m) ->
  exec (S n) w (LTok (TFun (FFor f)) l) s = Err (tb l (XE_NotFound (ff_src f))).
Proof. exact for_missing. Qed.
Print Assumptions C37_for.
Example C37_case : let f := NFile (lit "b") [] PNone None [] in let t := NDir (lit "c") [NDir (lit "a") [f] []] [] in
  get_at_path t (lit "./a//b/") = Some f /\ get_at_path t (lit "/a/b") = None /\ get_at_path t (lit "a/../a/b") = None /\ distinct t.
Proof. repeat split; repeat constructor; cbn; tauto. Qed.

(** ** C38 *)
Theorem C38_succeeds : forall a b, distinct a -> distinct b -> is_dir a = true -> is_dir b = true ->
  (snd (merge a b) = Done <-> forall p x y, ~ conflict a b p x y).
Proof. exact merge_done_iff. Qed.
Print Assumptions C38_succeeds.
Theorem C38_union : forall a b c, merge a b = (c, Done) ->
  (forall p x, at_names c p x -> exists y, (at_names a p y \/ at_names b p y) /\ same_node x y) /\
  (forall p y, at_names a p y \/ at_names b p y -> exists x, at_names c p x /\ same_node x y).
Proof. exact merge_any_union. Qed.
Print Assumptions C38_union.
Theorem C38_distinct : forall a b c, distinct a -> distinct b -> merge a b = (c, Done) -> distinct c.
Proof. exact merge_distinct_union. Qed.
Print Assumptions C38_distinct.
Theorem C38_conflict : forall b a, distinct b -> is_dir a = true -> is_dir b = true -> snd (merge a b) <> Done ->
  exists p x y, conflict a b p x y /\ snd (merge a b) = Failed (E_Fs (FE_Conflict (n_source x) (n_source y))).
Proof. exact merge_any_failed. Qed.
Print Assumptions C38_conflict.
Example C38_case : let f n s := NFile n [] PNone None s in
  let a := NDir (lit "c") [NDir (lit "a") [f (lit "x") [lit "1"]] []; f (lit "y") [lit "2"]] [] in
  let b := NDir (lit "s") [NDir (lit "a") [f (lit "z") [lit "3"]] []] [] in
  let c := NDir (lit "s") [NDir (lit "a") [f (lit "x") [lit "4"]] []] [] in
  distinct a /\ distinct b /\ snd (merge a b) = Done /\ snd (merge a c) = Failed (E_Fs (FE_Conflict [lit "1"] [lit "4"])).
Proof. repeat split; repeat constructor; cbn; intuition discriminate. Qed.

(** ** C45 *)
Theorem C45_fresh_partial : forall c ps b st h osenv mode d, history c ps b st ->
  snd (build h osenv mode d st) = snd (build h osenv mode d (stuart_new c ps)) /\
  (snd (build h osenv mode d st) = Ok tt -> fst (build h osenv mode d st) = fst (build h osenv mode d (stuart_new c ps))).
Proof. exact build_fresh. Qed.
Print Assumptions C45_fresh_partial.
(** After a build, a merge and a failed build. *)
Example C45_case : exists st, history config_default [] true st /\ st_output st <> None /\ st_input st <> None /\
  snd (build plain_host [] [] (site_dir (EDir [])) st) = Ok tt.
Proof.
  eexists. split.
  - eapply (hi_failed _ _ _ _ plain_host [] [] (site_dir (EDir [(lit "a.html", EFile [])]))).
    + eapply (hi_merge _ _ _ _ (NDir [] [NFile (lit "x") [] PIgnored None []] [])).
      eapply (hi_built _ _ _ _ plain_host [] [] (site_dir site)); [apply hi_new|]. vm_compute. reflexivity.
    + vm_compute. discriminate.
  - vm_compute. repeat split; discriminate.
Qed.

(** ** C46 *)
Theorem C46_not_built : forall c ps st, history c ps false st ->
  (forall n, merge_output n st = (st, Err E_NotBuilt)) /\
  (forall f p d, save f st p d = (d, Err E_NotBuilt)) /\
  (forall ser f p d, save_metadata ser f st p d = (d, Err (if cf_meta c then E_NotBuilt else E_MetadataNotEnabled))).
Proof. exact not_built. Qed.
Print Assumptions C46_not_built.
Theorem C46_built : forall c ps st, history c ps true st -> st_output st <> None.
Proof. exact built_has_output. Qed.
Print Assumptions C46_built.
(** After a failed build. *)
Example C46_case : history config_default [] false
  (fst (build plain_host [] [] (site_dir (EDir [(lit "a.html", EFile [])])) (stuart_new config_default []))).
Proof. apply hi_failed; [apply hi_new|]. vm_compute. discriminate. Qed.

(** ** C47 *)
Theorem C47_recorded : forall h vars input i o, build_tree h true vars input = Ok (i, o) -> mirror (fun _ => records) [] i o.
Proof. exact tree_records. Qed.
Print Assumptions C47_recorded.
Theorem C47_described : forall st out, cf_meta (st_config st) = true -> st_output st = Some out -> is_dir out = true -> describable out ->
  exists ch vs, n_children out = Some ch /\ Forall2 described ch vs /\
    metadata_value st = Ok (VObj [(lit "name", VStr (cf_name (st_config st)));
      (lit "author", match cf_author (st_config st) with Some a => VStr a | None => VNull end); (lit "data", VArr vs)]).
Proof. exact metadata_described. Qed.
Print Assumptions C47_described.
Theorem C47_describable : forall n anc out, mirror (fun _ => records) anc n out ->
  (forall name b c meta src, inside (NFile name b (PCustom c) meta src) n ->
     exists k v, np_json c = VObj [(lit "type", k); (lit "value", v)]) ->
  describable out.
Proof. exact records_describable. Qed.
Print Assumptions C47_describable.
(** The file written. *)
Theorem C47_saved : forall ser f st p d d', save_metadata ser f st p d = (d', Ok tt) ->
  exists v, metadata_value st = Ok v /\ what p d' = KFile (ser v).
Proof. exact meta_kind. Qed.
Print Assumptions C47_saved.
Example C47_case : exists v,
  let c := Config (lit "my site") None true false true in
  metadata_value (fst (build plain_host [] (lit "production")
    (site_dir (EDir [(lit "a.json", EFile []); (lit "s", EDir [(lit "root.html", EFile [])])])) (stuart_new c []))) = Ok v /\
  v = VObj [(lit "name", VStr (lit "my site")); (lit "author", VNull);
    (lit "data", VArr [VObj [(lit "name", VStr (lit "a.json")); (lit "type", VStr (lit "json")); (lit "value", VStr (lit "data"))];
      VObj [(lit "type", VStr (lit "directory")); (lit "name", VStr (lit "s"));
            (lit "children", VArr [VObj [(lit "name", VStr (lit "root.html")); (lit "type", VStr (lit "file"))]])]])].
Proof. eexists. split; vm_compute; reflexivity. Qed.
