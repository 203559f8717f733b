(** PropUnused.v -- property C109: sections nothing asks for. *)

From Coq Require Import String List NArith ZArith Bool Lia.
From Verif Require Import Text Utf8 Json Base Syntax Parse Tree Interp Build Disk Cli Js Shipped.
From Verif Require Import SpecScope SpecUtf8 SpecRender SpecTemplate SpecLoop SpecBlocks SpecMarkdown SpecTree SpecDisk SpecProject SpecSite SpecExact SpecSwap SpecSections SpecUnused.
From Verif Require TreeFacts.
From Verif Require Import Utf8Facts SelectFacts GrammarFacts SiteFacts ExactFacts PropSite PropExact SwapFacts SwapLaws SectionFacts UnusedFacts.
Import ListNotations.

(** In memory: a site that can be built can be built without the sections nothing asks for. *)
Theorem C109_builds : forall h osenv mode d d' st content content', sd_ent d = Some content -> sd_ent d' = Some content' -> plugins_give unmoved (st_plugins st) ->
  plain_site h (st_plugins st) osenv mode content -> ent_distinct content' ->
  thinned h (st_plugins st) (asked_in h (st_plugins st) content) [] content content' ->
  snd (build h osenv mode d st) = Ok tt -> snd (build h osenv mode d' st) = Ok tt.
Proof. exact builds_thin. Qed.
Print Assumptions C109_builds.
(** Both have the same pages. *)
Theorem C109_pages : forall h osenv mode d d' st content content' out out', sd_ent d = Some content -> sd_ent d' = Some content' -> plugins_give unmoved (st_plugins st) ->
  ent_distinct content -> ent_distinct content' -> site_in_order h (st_plugins st) (page_vars osenv mode) content ->
  thinned h (st_plugins st) (asked_in h (st_plugins st) content) [] content content' ->
  snd (build h osenv mode d st) = Ok tt /\ snd (build h osenv mode d' st) = Ok tt /\
  (st_output (fst (build h osenv mode d st)) = Some out -> st_output (fst (build h osenv mode d' st)) = Some out' ->
   forall ks name o, ~ is_template name ->
     ((exists pc m src, at_names out (ks ++ [name]) (NFile name o pc m src)) <-> (exists pc m src, at_names out' (ks ++ [name]) (NFile name o pc m src)))).
Proof. exact pages_thin. Qed.
Print Assumptions C109_pages.
(** On the disk: the output directories have the same files with the same bytes. *)
Theorem C109_project : forall m c d d' content content' statics, cx_pre c = [] -> cx_post c = [] -> cf_meta (st_config (cx_stuart c)) = false ->
  plugins_give unmoved (st_plugins (cx_stuart c)) ->
  project_ready c d content statics -> project_ready c d' content' statics ->
  no_conflict (m_host m) (st_plugins (cx_stuart c)) (page_vars (m_osenv m) (cx_mode c)) content statics ->
  no_overlap (m_host m) (st_plugins (cx_stuart c)) (page_vars (m_osenv m) (cx_mode c)) content (st_config (cx_stuart c)) statics ->
  site_in_order (m_host m) (st_plugins (cx_stuart c)) (page_vars (m_osenv m) (cx_mode c)) content ->
  thinned (m_host m) (st_plugins (cx_stuart c)) (asked_in (m_host m) (st_plugins (cx_stuart c)) content) [] content content' ->
  exists c1 d1 c2 d2, cli_build m no_faults c d = (c1, d1, COk) /\ cli_build m no_faults c d' = (c2, d2, COk) /\
    forall q o, what (output_dir c ++ q) d1 = KFile o <-> what (output_dir c ++ q) d2 = KFile o.
Proof. exact project_thin. Qed.
Print Assumptions C109_project.

(** The site of C61 with one more section on the page with the list of posts: the layout inserts
    only the section b. *)
Example C109_extra : string := "{{ begin(""x"") }}{{ $env.STUART_ENV }}{{ begin(""y"") }}{{ end(""y"") }}{{ end(""x"") }}".
Example C109_more (extra : string) : ent := EDir
  [(lit "list.html", C61_file (C61_page ++ extra)); (lit "md.html", C61_file "{{ begin(""b"") }}{{ $self.content }}{{ end(""b"") }}");
   (lit "posts", EDir C61_posts); (lit "root.html", C61_file "<{{ insert(""b"") }}>")].
Example C109_list : block := BSection (lit "b") [BFor (ForFn (lit "p") (lit "posts/") SrcDir None None None false) [BVar (lit "p.t"); BText (lit ";")]].
Example C109_section : block := BSection (lit "x") [BVar (lit "env.STUART_ENV"); BSection (lit "y") []].
Example C109_entries extra ks e : ent_at (C109_more extra) ks e ->
  (ks, e) = ([], C109_more extra) \/ (ks, e) = ([lit "list.html"], C61_file (C61_page ++ extra)) \/ (ks, e) = ([lit "md.html"], EFile (enc C62_post_template)) \/
  (ks, e) = ([lit "posts"], EDir C61_posts) \/ (ks, e) = ([lit "posts"; lit "a.md"], C61_file (C61_post "A")) \/
  (ks, e) = ([lit "posts"; lit "b.md"], C61_file (C61_post "B")) \/ (ks, e) = ([lit "root.html"], C61_file "<{{ insert(""b"") }}>").
Proof.
  intros A. inversion A as [|? k x ks' ? J A']; subst; [now left|]. right.
  destruct J as [J|[J|[J|[J|[]]]]]; injection J as <- <-; try (inversion A'; subst; tauto).
  inversion A' as [|? k x ks'' ? J A'']; subst; [tauto|]. destruct J as [J|[J|[]]]; injection J as <- <-; inversion A''; subst; tauto.
Qed.
Example C109_plain : plain_site C61_host [] [] (lit "production") (C109_more C109_extra).
Proof.
  split; [repeat first [apply ed_file|apply ed_dir|constructor]; vm_compute; intuition discriminate|]. split.
  - intros ks name b t s ts A. apply C109_entries in A.
    destruct A as [A|[A|[A|[A|[A|[A|A]]]]]]; apply pair_equal_spec in A; destruct A as [A1 A2]; try discriminate A2; apply (app_inj_tail ks []) in A1 || apply (app_inj_tail ks [_]) in A1;
      destruct A1 as [-> ->]; injection A2 as ->.
    + apply laid_html with (l := [C109_list; C109_section]);
        [exists (lit "list"); split; [reflexivity|]; split; [discriminate|vm_compute; intuition discriminate]|vm_compute; reflexivity|reflexivity].
    + apply laid_html with (l := [BSection (lit "b") [BVar (lit "self.content")]]); [exact md_ext|vm_compute; reflexivity|reflexivity].
    + apply laid_md with (l := [BText (lit "hi")]); [exists (lit "a"); split; [reflexivity|]; split; [discriminate|vm_compute; intuition discriminate]|vm_compute; reflexivity|reflexivity].
    + apply laid_md with (l := [BText (lit "hi")]); [exists (lit "b"); split; [reflexivity|]; split; [discriminate|vm_compute; intuition discriminate]|vm_compute; reflexivity|reflexivity].
    + apply laid_html with (l := [BText (lit "<"); BInsert (lit "b"); BText (lit ">")]); [exact root_ext|vm_compute; reflexivity|reflexivity].
  - split; [reflexivity|]. split; [exact C90_host_scalar|]. split; [intros ? ? ? ? []|]. split; [constructor|]. repeat (constructor; [left; reflexivity|]). constructor.
Qed.
Example C109_start : stuart := stuart_new (Config (lit "n") None true false false) [].
Example C109_in_order : site_in_order C61_host [] (page_vars [] (lit "production")) (C109_more C109_extra).
Proof. apply (C90_exactly C61_host [] (lit "production") (SourceDir [] [] (Some (C109_more C109_extra))) C109_start _ eq_refl C109_plain). vm_compute. reflexivity. Qed.
(** Only the section b is asked for. *)
Example C109_asked n : asked_in C61_host [] (C109_more C109_extra) n -> n = lit "b".
Proof.
  intros (ks & name & b & t & l & A & X & U & W & I). apply C109_entries in A.
  assert (K : forall b0 l0, match from_utf8 b0 with
    | Some t => match parse_html (h_ext C61_host) (fns []) [] t with Ok toks => map t_inner toks = flat_map tags l0 | _ => False end
    | None => False
    end -> b = b0 -> l = l0).
  { intros b0 l0 M ->. apply (html_written C61_host []) in M. destruct M as (t0 & U0 & W0). assert (t0 = t) as -> by (eapply utf8_text_fun; eassumption). eapply written_one; eassumption. }
  assert (N : forall k, k <> [] -> ~ has_ext (k ++ lit ".md") (lit "html")).
  { intros k Nk Y. assert (Z : has_ext (k ++ lit ".md") (lit "md")) by (exists k; repeat split; [exact Nk|vm_compute; intuition discriminate]). discriminate (TreeFacts.has_ext_unique _ _ _ Y Z). }
  destruct A as [A|[A|[A|[A|[A|[A|A]]]]]]; apply pair_equal_spec in A; destruct A as [A1 A2]; try discriminate A2; apply (app_inj_tail ks []) in A1 || apply (app_inj_tail ks [_]) in A1;
    destruct A1 as [-> ->]; injection A2 as A2.
  - apply (K _ [C109_list; C109_section]) in A2; [|vm_compute; reflexivity]. subst l. destruct I.
  - apply (K _ [BSection (lit "b") [BVar (lit "self.content")]]) in A2; [|vm_compute; reflexivity]. subst l. destruct I.
  - now apply (N (lit "a")) in X.
  - now apply (N (lit "b")) in X.
  - apply (K _ [BText (lit "<"); BInsert (lit "b"); BText (lit ">")]) in A2; [|vm_compute; reflexivity]. subst l. destruct I as [I|[]]. now symmetry.
Qed.
Example C109_thinned : thinned C61_host [] (asked_in C61_host [] (C109_more C109_extra)) [] (C109_more C109_extra) C61_content.
Proof.
  apply th_dir. apply Forall2_cons; [split; [reflexivity|]|apply Forall2_cons; [split; [reflexivity|]|apply Forall2_cons; [split; [reflexivity|]|apply Forall2_cons; [split; [reflexivity|]|apply Forall2_nil]]]].
  - apply th_file; [exists (lit "list"); repeat split; [discriminate|vm_compute; intuition discriminate]|discriminate|].
    destruct (html_written C61_host [] (enc (lit (C61_page ++ C109_extra))) [C109_list; C109_section]) as (t & U & W); [vm_compute; reflexivity|].
    destruct (html_written C61_host [] (enc (lit C61_page)) [C109_list]) as (t' & U' & W'); [vm_compute; reflexivity|].
    exists t, t', [C109_list; C109_section], [C109_list]. repeat (split; [assumption|]).
    apply (fw_app _ [C109_list] [C109_list] [C109_section] []); [apply fw_same|]. apply fw_drop. intros n I As. apply C109_asked in As. subst n. destruct I as [I|[I|[]]]; discriminate I.
  - apply th_same.
  - apply th_dir. apply Forall2_cons; [split; [reflexivity|]|apply Forall2_cons; [split; [reflexivity|]|apply Forall2_nil]]; apply th_same.
  - apply th_same.
Qed.
Example C109_disk : ent := EDir [(lit "p", EDir [(lit "stuart.toml", EFile []); (lit "content", C109_more C109_extra); (lit "static", C62_statics); (lit "dist", EDir [(lit "old", EFile [])])])].
Example C109_ready d content : (d, content) = (C62_disk, C61_content) \/ (d, content) = (C109_disk, C109_more C109_extra) -> project_ready C61_project d content C62_statics.
Proof.
  intros [E|E]; injection E as -> ->; (split; [reflexivity|]; split; [now left|]; split; [reflexivity|]; split;
    [repeat first [apply ed_file|apply ed_dir|constructor]; vm_compute; intuition discriminate|]; split;
    [split; [|split; [|split; [|reflexivity]]]; intros e L; vm_compute in L; try discriminate; injection L as <-;
       repeat first [constructor|discriminate|now vm_compute; intuition discriminate]|]; split;
    [split; [eexists; reflexivity|]; intros ks A; apply C62_static_entries in A; intuition discriminate|]; split; [discriminate|]; split; [reflexivity|now right]).
Qed.
Example C109_distinct : ent_distinct C61_content.
Proof. repeat first [apply ed_file|apply ed_dir|constructor]; vm_compute; intuition discriminate. Qed.
Example C109_same_site : exists c1 d1 c2 d2, cli_build C61_machine no_faults C61_project C109_disk = (c1, d1, COk) /\ cli_build C61_machine no_faults C61_project C62_disk = (c2, d2, COk) /\
  forall q o, what ([lit "p"; lit "dist"] ++ q) d1 = KFile o <-> what ([lit "p"; lit "dist"] ++ q) d2 = KFile o.
Proof.
  assert (G : plugins_give unmoved []) by intros pl f raw g [].
  apply (C109_project C61_machine C61_project C109_disk C62_disk (C109_more C109_extra) C61_content C62_statics); try reflexivity.
  - exact G.
  - apply C109_ready. now right.
  - apply C109_ready. now left.
  - apply (conflict_thin C61_host [] G (page_vars [] (lit "production")) _ _ _ C109_thinned (fun n X => X) C109_distinct C109_in_order). exact C62_no_conflict.
  - apply (overlap_thin C61_host [] G (page_vars [] (lit "production")) _ _ _ C109_thinned (fun n X => X) C109_distinct C109_in_order). exact (C62_no_overlap false).
  - exact C109_in_order.
  - exact C109_thinned.
Qed.
(** The section that is left out is there, and is printed nowhere. *)
Example C109_differ : C109_more C109_extra <> C61_content /\
  what [lit "p"; lit "dist"; lit "list"; lit "index.html"] (snd (fst (cli_build C61_machine no_faults C61_project C109_disk))) = KFile (enc (lit "<A;B;>")).
Proof. split; [intros E; injection E as E; discriminate E|vm_compute; reflexivity]. Qed.
(** In the other direction it does not hold: what stands in a section nothing asks for must be in order too. *)
Example C109_not_back : snd (build C61_host [] (lit "production") (SourceDir [] [] (Some (C109_more "{{ begin(""x"") }}{{ $title }}{{ end(""x"") }}"))) C109_start) <> Ok tt /\
  snd (build C61_host [] (lit "production") (SourceDir [] [] (Some C61_content)) C109_start) = Ok tt.
Proof. split; [vm_compute; discriminate|vm_compute; reflexivity]. Qed.
(** A section that is asked for cannot be left out. *)
Example C109_needed :
  let site page := SourceDir [] [] (Some (EDir [(lit "page.html", C61_file page); (lit "root.html", C61_file "{{ insert(""a"") }}")])) in
  snd (build C61_host [] (lit "production") (site "{{ begin(""a"") }}1{{ end(""a"") }}"%string) C109_start) = Ok tt /\ snd (build C61_host [] (lit "production") (site ""%string) C109_start) <> Ok tt.
Proof. split; [vm_compute; reflexivity|vm_compute; discriminate]. Qed.
