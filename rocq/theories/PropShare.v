(** PropShare.v -- property C107: a data file may be imported first and looped over by its variable. *)

From Coq Require Import String List NArith ZArith Bool Lia.
From Verif Require Import Text Utf8 Json Base Syntax Parse Tree Interp Build Disk Cli.
From Verif Require Import SpecScope SpecUtf8 SpecRender SpecTemplate SpecLoop SpecBlocks SpecMarkdown SpecTree SpecDisk SpecProject SpecSite SpecExact SpecSwap SpecShare.
From Verif Require Import Utf8Facts SelectFacts GrammarFacts TreeFacts SiteFacts ExactFacts PropSite PropExact SwapFacts SwapLaws ShareFacts.
Import ListNotations.

(** In memory: with an import of a data file at the top of some pages and layouts, and loops over the
    variable instead of the file, the site can be built if, and only if, it can without. *)
Theorem C107_builds : forall h osenv mode d d' st content content', sd_ent d = Some content -> sd_ent d' = Some content' ->
  plain_site h (st_plugins st) osenv mode content -> plain_site h (st_plugins st) osenv mode content' ->
  imported h (st_plugins st) (page_vars osenv mode) content [] content content' ->
  (snd (build h osenv mode d st) = Ok tt <-> snd (build h osenv mode d' st) = Ok tt).
Proof. exact imported_builds. Qed.
Print Assumptions C107_builds.
(** Both have the same pages. *)
Theorem C107_pages : forall h osenv mode d d' st content content' out out', sd_ent d = Some content -> sd_ent d' = Some content' ->
  ent_distinct content -> ent_distinct content' -> site_in_order h (st_plugins st) (page_vars osenv mode) content ->
  imported h (st_plugins st) (page_vars osenv mode) content [] content content' ->
  snd (build h osenv mode d st) = Ok tt /\ snd (build h osenv mode d' st) = Ok tt /\
  (st_output (fst (build h osenv mode d st)) = Some out -> st_output (fst (build h osenv mode d' st)) = Some out' ->
   forall ks name o, ~ is_template name ->
     ((exists pc m src, at_names out (ks ++ [name]) (NFile name o pc m src)) <-> (exists pc m src, at_names out' (ks ++ [name]) (NFile name o pc m src)))).
Proof. exact imported_pages. Qed.
Print Assumptions C107_pages.
(** On the disk: the output directories have the same files with the same bytes. *)
Theorem C107_project : forall m c d d' content content' statics, cx_pre c = [] -> cx_post c = [] -> cf_meta (st_config (cx_stuart c)) = false ->
  project_ready c d content statics -> project_ready c d' content' statics -> ent_distinct content ->
  no_conflict (m_host m) (st_plugins (cx_stuart c)) (page_vars (m_osenv m) (cx_mode c)) content statics ->
  no_overlap (m_host m) (st_plugins (cx_stuart c)) (page_vars (m_osenv m) (cx_mode c)) content (st_config (cx_stuart c)) statics ->
  site_in_order (m_host m) (st_plugins (cx_stuart c)) (page_vars (m_osenv m) (cx_mode c)) content ->
  imported (m_host m) (st_plugins (cx_stuart c)) (page_vars (m_osenv m) (cx_mode c)) content [] content content' ->
  exists c1 d1 c2 d2, cli_build m no_faults c d = (c1, d1, COk) /\ cli_build m no_faults c d' = (c2, d2, COk) /\
    forall q o, what (output_dir c ++ q) d1 = KFile o <-> what (output_dir c ++ q) d2 = KFile o.
Proof. exact imported_project. Qed.
Print Assumptions C107_project.

(** The import may also stand at the beginning of a section, ... *)
Theorem C107_section : forall h ps vars content, ent_distinct content -> forall x file j, site_json h content file j -> ~ In c_dot x ->
  forall l l', Forall2 (shared x file) l l' -> forall label,
  interchangeable (h_date h) (site_json h content) (site_posts h ps vars content) [BSection label l] [BSection label (BImport x file :: l')].
Proof. exact import_section. Qed.
Print Assumptions C107_section.
(** ... of the body of a loop, where the file is imported for each value, ... *)
Theorem C107_loop : forall h ps vars content, ent_distinct content -> forall x file j, site_json h content file j -> ~ In c_dot x ->
  forall l l', Forall2 (shared x file) l l' -> forall f, ff_var f <> x ->
  interchangeable (h_date h) (site_json h content) (site_posts h ps vars content) [BFor f l] [BFor f (BImport x file :: l')].
Proof. exact import_loop. Qed.
Print Assumptions C107_loop.
(** ... or of a branch. *)
Theorem C107_branch : forall h ps vars content, ent_distinct content -> forall x file j, site_json h content file j -> ~ In c_dot x ->
  forall l l', Forall2 (shared x file) l l' -> forall c m,
  interchangeable (h_date h) (site_json h content) (site_posts h ps vars content) [BIf c l] [BIf c (BImport x file :: l')] /\
  interchangeable (h_date h) (site_json h content) (site_posts h ps vars content) [BIfElse c l m] [BIfElse c (BImport x file :: l') m] /\
  interchangeable (h_date h) (site_json h content) (site_posts h ps vars content) [BIfElse c m l] [BIfElse c m (BImport x file :: l')].
Proof. exact import_branch. Qed.
Print Assumptions C107_branch.

(** A page that prints the two records of a data file, and then the first one again. *)
Example C107_record (s : string) : value := VObj [(lit "t", VStr (lit s))].
Example C107_host : host := Host (fun _ => false) (fun t => t) None (fun _ => Some (VArr [C107_record "A"; C107_record "B"])).
Example C107_page (import src : string) : string :=
  (import ++ "{{ begin(""b"") }}{{ for($p, " ++ src ++ ") }}{{ $p.t }};{{ end(for) }}{{ for($p, " ++ src ++ ", limit=1) }}{{ $p.t }}{{ end(for) }}{{ end(""b"") }}")%string.
Example C107_content (import src : string) : ent := EDir
  [(lit "d.json", C61_file "[]"); (lit "list.html", C61_file (C107_page import src)); (lit "root.html", C61_file "<{{ insert(""b"") }}>")].
Example C107_without : ent := C107_content "" """d.json""".
Example C107_with : ent := C107_content "{{ import($x, ""d.json"") }}" "$x".
Example C107_for (n : option N) : for_fn := ForFn (lit "p") (lit "d.json") SrcJson None n None false.
Example C107_blocks (f : for_fn -> for_fn) : list block :=
  [BSection (lit "b") [BFor (f (C107_for None)) [BVar (lit "p.t"); BText (lit ";")]; BFor (f (C107_for (Some 1%N))) [BVar (lit "p.t")]]].
Example C107_not_x v : hd 0%N v <> 120%N -> ~ about (lit "x") v.
Proof. intros N [p ->]. apply N. now destruct p. Qed.
Example C107_shared : Forall2 (shared (lit "x") (lit "d.json")) (C107_blocks (fun f => f)) (C107_blocks (over_variable (lit "x"))).
Proof.
  repeat first [apply Forall2_nil|apply Forall2_cons|apply hd_section|apply hd_over|apply hd_text|apply hd_var]; try discriminate; try reflexivity; apply C107_not_x; discriminate.
Qed.
Example C107_data : site_json C107_host C107_without (lit "d.json") (VArr [C107_record "A"; C107_record "B"]).
Proof.
  exists [], (lit "d.json"), (enc (lit "[]")), (lit "[]"). split; [|split; [|split; [|split; [|reflexivity]]]].
  - exists (lit "d.json"), []. split; [reflexivity|]. split; [repeat constructor; vm_compute; intuition discriminate|]. split; [reflexivity|]. apply pn_keep; try discriminate. apply pn_nil.
  - eapply ea_child; [left; reflexivity|]. apply ea_here.
  - exists (lit "d"). split; [reflexivity|]. split; [discriminate|vm_compute; intuition discriminate].
  - apply decoding. reflexivity.
Qed.
Example C107_distinct : ent_distinct C107_without /\ ent_distinct C107_with.
Proof. split; (repeat first [apply ed_file|apply ed_dir|constructor]; vm_compute; intuition discriminate). Qed.
Example C107_imported osenv mode : imported C107_host [] (page_vars osenv mode) C107_without [] C107_without C107_with.
Proof.
  apply ip_dir. repeat (constructor; [split; [reflexivity|]|]); [apply ip_same| |apply ip_same|constructor].
  apply ip_file; [exists (lit "list"); split; [reflexivity|]; split; [discriminate|vm_compute; intuition discriminate]|].
  destruct (html_written C107_host [] (enc (lit (C107_page "" """d.json"""))) (C107_blocks (fun f => f))) as (t & U & W); [vm_compute; reflexivity|].
  destruct (html_written C107_host [] (enc (lit (C107_page "{{ import($x, ""d.json"") }}" "$x"))) (BImport (lit "x") (lit "d.json") :: C107_blocks (over_variable (lit "x")))) as (t' & U' & W'); [vm_compute; reflexivity|].
  exists t, t', (lit "x"), (lit "d.json"), (VArr [C107_record "A"; C107_record "B"]), (C107_blocks (fun f => f)), (C107_blocks (over_variable (lit "x"))).
  repeat (split; [first [assumption|exact C107_shared|exact C107_data|vm_compute; intuition discriminate]|]). discriminate.
Qed.
(** All hypotheses are met, and the two are built to the same site. *)
Example C107_host_scalar : scalar_host C107_host.
Proof.
  split; [intros t S; exact S|]. split; [intros; discriminate|]. intros t v E. injection E as <-.
  repeat constructor.
Qed.
Example C107_plain content : content = C107_without \/ content = C107_with -> plain_site C107_host [] [] (lit "production") content.
Proof.
  intros X. split; [destruct X as [-> | ->]; apply C107_distinct|]. split.
  - intros ks name b t s ts A U T.
    assert (A1 : (ks, name) = ([], lit "d.json") \/ (ks, name, b) = ([], lit "root.html", enc (lit "<{{ insert(""b"") }}>")) \/
      (ks, name, EFile b) = ([], lit "list.html", match content with EDir [_; x; _] => snd x | _ => EOther end)).
    { destruct X as [-> | ->]; (inversion A as [|? k e ks' ? J A']; subst); destruct J as [J|[J|[J|[]]]]; injection J as <- <-; inversion A' as [Q|]; subst;
        match goal with H : [_] = _ |- _ => apply (app_inj_tail [] ks) in H; destruct H as [<- <-] end; tauto. }
    destruct A1 as [A1|[A1|A1]].
    + injection A1 as -> ->. assert (Xj : has_ext (lit "d.json") (lit "json")) by (exists (lit "d"); split; [reflexivity|]; split; [discriminate|vm_compute; intuition discriminate]).
      destruct T as [[Y _]|[Y _]]; discriminate (has_ext_unique _ _ _ Xj Y).
    + injection A1 as -> -> ->. revert U T. apply laid_html with (l := [BText (lit "<"); BInsert (lit "b"); BText (lit ">")]); [exact root_ext|vm_compute; reflexivity|reflexivity].
    + assert (Xh : has_ext (lit "list.html") (lit "html")) by (exists (lit "list"); split; [reflexivity|]; split; [discriminate|vm_compute; intuition discriminate]).
      destruct X as [-> | ->]; injection A1 as -> -> ->; revert U T.
      * apply laid_html with (l := C107_blocks (fun f => f)); [exact Xh|vm_compute; reflexivity|reflexivity].
      * apply laid_html with (l := BImport (lit "x") (lit "d.json") :: C107_blocks (over_variable (lit "x"))); [exact Xh|vm_compute; reflexivity|reflexivity].
  - split; [reflexivity|]. split; [exact C107_host_scalar|]. split; [intros ? ? ? ? []|]. split; [constructor|]. repeat (constructor; [left; reflexivity|]). constructor.
Qed.
Example C107_state : stuart := stuart_new (Config (lit "n") None true false false) [].
Example C107_in_order : site_in_order C107_host [] (page_vars [] (lit "production")) C107_without.
Proof.
  refine (proj1 (C90_exactly C107_host [] (lit "production") (SourceDir [] [] (Some C107_without)) C107_state C107_without eq_refl (C107_plain _ (or_introl eq_refl))) _).
  vm_compute. reflexivity.
Qed.
Example C107_both_built : snd (build C107_host [] (lit "production") (SourceDir [] [] (Some C107_with)) C107_state) = Ok tt.
Proof.
  refine (proj1 (C107_builds C107_host [] (lit "production") (SourceDir [] [] (Some C107_without)) (SourceDir [] [] (Some C107_with)) C107_state C107_without C107_with eq_refl eq_refl
    (C107_plain _ (or_introl eq_refl)) (C107_plain _ (or_intror eq_refl)) (C107_imported _ _)) _).
  vm_compute. reflexivity.
Qed.
(** The same as projects on the disk. *)
Example C107_disk (content : ent) : ent := EDir [(lit "p", EDir [(lit "stuart.toml", EFile []); (lit "content", content); (lit "static", EDir [])])].
Example C107_machine : machine := Machine C107_host (fun _ => []) [] (fun _ d => (d, ScriptOk)).
Example C107_context : context := Context C107_state [] [] (lit "production") [lit "p"] (lit "dist").
Example C107_ready content : content = C107_without \/ content = C107_with -> project_ready C107_context (C107_disk content) content (EDir []).
Proof.
  intros [-> | ->]; (split; [reflexivity|]; split; [now left|]; split; [reflexivity|]; split;
    [repeat first [apply ed_file|apply ed_dir|constructor]; vm_compute; intuition discriminate|]; split;
    [split; [|split; [|split; [|reflexivity]]]; intros e L; vm_compute in L; try discriminate; injection L as <-;
       repeat first [constructor|discriminate|now vm_compute; intuition discriminate]|]; split;
    [split; [eexists; reflexivity|]; intros ks A; inversion A; subst; match goal with H : In _ [] |- _ => destruct H end|]; split; [discriminate|]; split; [reflexivity|now left]).
Qed.
Example C107_published ks name o : published C107_host [] (page_vars [] (lit "production")) C107_without ks name o ->
  (ks = [] /\ hidden (Config (lit "n") None true false false) name) \/ (ks, name, o) = ([], lit "list.html", enc (lit "<A;B;A>")).
Proof.
  assert (D := proj1 C107_distinct). intros P.
  let x := eval vm_compute in (st_output (fst (build C107_host [] (lit "production") (SourceDir [] [] (Some C107_without)) C107_state))) in
  match x with Some ?out =>
    apply (proj2 (C62_files C107_host [] (lit "production") (SourceDir [] [] (Some C107_without)) C107_state C107_without out
      (C62_builds C107_host [] (lit "production") (SourceDir [] [] (Some C107_without)) C107_state C107_without eq_refl D C107_in_order) ltac:(vm_compute; reflexivity) eq_refl D C107_in_order ks name o)) in P end.
  destruct P as (pc & m & src & A). remember (ks ++ [name]) as kk eqn:K.
  inversion A as [|? ? ? c ks' ? J A']; subst. clear A. match goal with H : _ :: _ = ks ++ [name] |- _ => rename H into K end.
  destruct J as [<-|[<-|[<-|[]]]]; cbn [n_name] in K; inversion A'; subst; apply (app_inj_tail [] ks) in K; destruct K as [<- _].
  - left. split; [reflexivity|]. right. split; [reflexivity|]. now exists (lit "d").
  - right. reflexivity.
  - left. split; [reflexivity|]. left. now left.
Qed.
Example C107_page_at q o : page_at C107_host [] (page_vars [] (lit "production")) C107_without (Config (lit "n") None true false false) q o ->
  (q, o) = ([lit "list"; lit "index.html"], enc (lit "<A;B;A>")).
Proof.
  intros (ks & name & P & H & S). apply C107_published in P. destruct P as [[_ P]|P]; [contradiction|].
  apply pair_equal_spec in P. destruct P as [P ->]. apply pair_equal_spec in P. destruct P as [-> ->].
  assert (Q0 : stripped (Config (lit "n") None true false false) (lit "list.html") PNone (lit "list")) by (repeat split; discriminate).
  inversion S as [? s' Q|? s' Q E|? Q]; subst.
  - destruct Q as (_ & _ & _ & Q). apply (app_inv_tail (lit ".html") (lit "list")) in Q. now rewrite <- Q.
  - destruct Q as (_ & _ & _ & Q). apply (app_inv_tail (lit ".html") (lit "list")) in Q. rewrite <- Q in E. destruct E; discriminate.
  - now destruct (Q (lit "list")).
Qed.
Example C107_no_static ks x : ent_at (EDir []) ks x -> x = EDir [].
Proof. intros A. inversion A; subst; [reflexivity|]. match goal with H : In _ [] |- _ => destruct H end. Qed.
Example C107_no_overlap : no_overlap C107_host [] (page_vars [] (lit "production")) C107_without (Config (lit "n") None true false false) (EDir []).
Proof.
  assert (Q : forall q o, SpecSite.file_at C107_host [] (page_vars [] (lit "production")) C107_without (Config (lit "n") None true false false) (EDir []) q o ->
    (q, o) = ([lit "list"; lit "index.html"], enc (lit "<A;B;A>"))).
  { intros q o [P|[P _]]; [now apply C107_page_at|]. discriminate (C107_no_static _ _ P). }
  split.
  - intros q o o' P P'. apply Q in P, P'. congruence.
  - intros q o P F. apply Q in P. apply pair_equal_spec in P. destruct P as [-> _].
    destruct F as [[[l A]|(ks & name & o' & stem & Pb & H & (_ & _ & _ & S) & E)]|[l A]].
    + inversion A as [|? k x ks' ? J A']; subst. destruct J as [J|[J|[J|[]]]]; discriminate J.
    + apply C107_published in Pb. destruct Pb as [[_ Pb]|Pb]; [contradiction|].
      apply pair_equal_spec in Pb. destruct Pb as [Pb _]. apply pair_equal_spec in Pb. destruct Pb as [-> _]. discriminate E.
    + inversion A; subst. match goal with H : In _ [] |- _ => destruct H end.
Qed.
Example C107_no_conflict : no_conflict C107_host [] (page_vars [] (lit "production")) C107_without (EDir []).
Proof.
  split.
  - intros ks name e o A _. inversion A; subst; [destruct ks; discriminate|]. match goal with H : In _ [] |- _ => destruct H end.
  - intros ks b l A. discriminate (C107_no_static _ _ A).
Qed.
Example C107_same_site : exists c1 d1 c2 d2, cli_build C107_machine no_faults C107_context (C107_disk C107_without) = (c1, d1, COk) /\
  cli_build C107_machine no_faults C107_context (C107_disk C107_with) = (c2, d2, COk) /\
  forall q o, what ([lit "p"; lit "dist"] ++ q) d1 = KFile o <-> what ([lit "p"; lit "dist"] ++ q) d2 = KFile o.
Proof.
  apply (C107_project C107_machine C107_context (C107_disk C107_without) (C107_disk C107_with) C107_without C107_with (EDir [])); try reflexivity.
  - apply C107_ready. now left.
  - apply C107_ready. now right.
  - exact (proj1 C107_distinct).
  - exact C107_no_conflict.
  - exact C107_no_overlap.
  - exact C107_in_order.
  - apply C107_imported.
Qed.
Example C107_printed : what [lit "p"; lit "dist"; lit "list"; lit "index.html"] (snd (fst (cli_build C107_machine no_faults C107_context (C107_disk C107_with)))) = KFile (enc (lit "<A;B;A>")).
Proof. vm_compute. reflexivity. Qed.
(** The import inside the section, and one that nothing is about, in a branch. *)
Example C107_inside vars : rewritten None (site_json C107_host C107_without) (site_posts C107_host [] vars C107_without)
  (BIf (TDefined (lit "env")) [BText (lit "hi")] :: C107_blocks (fun f => f))
  (BIf (TDefined (lit "env")) [BImport (lit "x") (lit "d.json"); BText (lit "hi")] ::
   match C107_blocks (over_variable (lit "x")) with [BSection label l] => [BSection label (BImport (lit "x") (lit "d.json") :: l)] | m => m end).
Proof.
  apply (rw_app _ _ _ [_] [_]); apply rw_swap.
  - apply (proj1 (C107_branch C107_host [] vars C107_without (proj1 C107_distinct) (lit "x") (lit "d.json") _ C107_data ltac:(vm_compute; intuition discriminate)
      [BText (lit "hi")] [BText (lit "hi")] ltac:(repeat constructor) (TDefined (lit "env")) [])).
  - assert (S := C107_shared). inversion S as [|? ? ? ? Sh _]; subst. inversion Sh; subst.
    apply (C107_section C107_host [] vars C107_without (proj1 C107_distinct) (lit "x") (lit "d.json") _ C107_data); [vm_compute; intuition discriminate|assumption].
Qed.
(** Blocks that are about the variable do see the import. *)
Example C107_seen (import : string) : ent := EDir
  [(lit "d.json", C61_file "[]"); (lit "list.html", C61_file (import ++ "{{ begin(""b"") }}{{ ifdefined($x) }}seen{{ end(ifdefined) }}{{ end(""b"") }}")); (lit "root.html", C61_file "<{{ insert(""b"") }}>")].
Example C107_needed :
  what [lit "p"; lit "dist"; lit "list"; lit "index.html"] (snd (fst (cli_build C107_machine no_faults C107_context (C107_disk (C107_seen ""))))) = KFile (enc (lit "<>")) /\
  what [lit "p"; lit "dist"; lit "list"; lit "index.html"] (snd (fst (cli_build C107_machine no_faults C107_context (C107_disk (C107_seen "{{ import($x, ""d.json"") }}"))))) = KFile (enc (lit "<seen>")).
Proof. split; vm_compute; reflexivity. Qed.
