(** PropSections.v -- property C101: the order of the sections of a page, and the text around them. *)

From Coq Require Import String List NArith ZArith Bool Lia.
From Verif Require Import Text Utf8 Json Base Syntax Parse Tree Interp Build Disk Cli Js Shipped.
From Verif Require Import SpecScope SpecUtf8 SpecRender SpecTemplate SpecLoop SpecBlocks SpecMarkdown SpecTree SpecDisk SpecProject SpecSite SpecExact SpecSwap SpecSections.
From Verif Require Import Utf8Facts SelectFacts GrammarFacts SiteFacts ExactFacts PropSite PropExact SwapFacts SwapLaws SectionFacts.
Import ListNotations.

(** In memory: the one site can be built if, and only if, the other can. *)
Theorem C101_builds : forall h osenv mode d d' st content content', sd_ent d = Some content -> sd_ent d' = Some content' -> plugins_give unmoved (st_plugins st) ->
  plain_site h (st_plugins st) osenv mode content -> plain_site h (st_plugins st) osenv mode content' ->
  rearranged h (st_plugins st) [] content content' ->
  (snd (build h osenv mode d st) = Ok tt <-> snd (build h osenv mode d' st) = Ok tt).
Proof. exact builds_moved. Qed.
Print Assumptions C101_builds.
(** Both have the same pages. *)
Theorem C101_pages : forall h osenv mode d d' st content content' out out', sd_ent d = Some content -> sd_ent d' = Some content' -> plugins_give unmoved (st_plugins st) ->
  ent_distinct content -> ent_distinct content' -> site_in_order h (st_plugins st) (page_vars osenv mode) content ->
  rearranged h (st_plugins st) [] content content' ->
  snd (build h osenv mode d st) = Ok tt /\ snd (build h osenv mode d' st) = Ok tt /\
  (st_output (fst (build h osenv mode d st)) = Some out -> st_output (fst (build h osenv mode d' st)) = Some out' ->
   forall ks name o, ~ is_template name ->
     ((exists pc m src, at_names out (ks ++ [name]) (NFile name o pc m src)) <-> (exists pc m src, at_names out' (ks ++ [name]) (NFile name o pc m src)))).
Proof. exact pages_moved. Qed.
Print Assumptions C101_pages.
(** On the disk: the output directories have the same files with the same bytes. *)
Theorem C101_project : forall m c d d' content content' statics, cx_pre c = [] -> cx_post c = [] -> cf_meta (st_config (cx_stuart c)) = false ->
  plugins_give unmoved (st_plugins (cx_stuart c)) ->
  project_ready c d content statics -> project_ready c d' content' statics ->
  no_conflict (m_host m) (st_plugins (cx_stuart c)) (page_vars (m_osenv m) (cx_mode c)) content statics ->
  no_overlap (m_host m) (st_plugins (cx_stuart c)) (page_vars (m_osenv m) (cx_mode c)) content (st_config (cx_stuart c)) statics ->
  site_in_order (m_host m) (st_plugins (cx_stuart c)) (page_vars (m_osenv m) (cx_mode c)) content ->
  rearranged (m_host m) (st_plugins (cx_stuart c)) [] content content' ->
  exists c1 d1 c2 d2, cli_build m no_faults c d = (c1, d1, COk) /\ cli_build m no_faults c d' = (c2, d2, COk) /\
    forall q o, what (output_dir c ++ q) d1 = KFile o <-> what (output_dir c ++ q) d2 = KFile o.
Proof. exact project_moved. Qed.
Print Assumptions C101_project.
(** Functions written in JavaScript and those of the two plugins that come with the program have
    nothing to do with sections. *)
Theorem C101_plugins : forall o ps, (forall pl, In pl ps -> In pl [imgopt o; demo] \/ forall f, In f (pl_fns pl) -> exists name code, f = js_plugin_parser name code) ->
  plugins_give unmoved ps.
Proof. exact ours_unmoved. Qed.
Print Assumptions C101_plugins.

(** A page of two sections, in either order, with some text before, between and after them. *)
Example C101_one : block := BSection (lit "t") [BText (lit "one")].
Example C101_two : block := BSection (lit "b") [BVar (lit "env.STUART_ENV")].
Example C101_site (page : string) : ent := EDir
  [(lit "page.html", C61_file page); (lit "root.html", C61_file "<{{ insert(""t"") }}|{{ insert(""b"") }}>")].
Example C101_before : string := "A{{ begin(""t"") }}one{{ end(""t"") }}{{ begin(""b"") }}{{ $env.STUART_ENV }}{{ end(""b"") }}".
Example C101_after : string := "{{ begin(""b"") }}{{ $env.STUART_ENV }}{{ end(""b"") }} and {{ begin(""t"") }}one{{ end(""t"") }}.".
Example C101_text s : from_utf8 (enc (lit s)) = Some (lit s) -> reordered [BText (lit s)] [].
Proof. intros U. apply (ro_text _ (enc (lit s))). now apply decoding. Qed.
Example C101_reordered : reordered [BText (lit "A"); C101_one; C101_two] [C101_two; BText (lit " and "); C101_one; BText (lit ".")].
Proof.
  apply (ro_trans _ ([] ++ [C101_two; C101_one])).
  - apply (ro_app [_] [] [_; _] [_; _]); [now apply C101_text|]. apply ro_swap. intros n. cbn. split; [intros [<-|[]]; split; [intros [E|[]]; discriminate E|intros []]|intros _ []].
  - apply (ro_app [_] [_] [_] [_; _; _]); [apply ro_same|]. apply (ro_app [] [_] [_] [_; _]); [now apply ro_sym, C101_text|]. apply (ro_app [_] [_] [] [_]); [apply ro_same|now apply ro_sym, C101_text].
Qed.
Example C101_rearranged : rearranged C61_host [] [] (C101_site C101_before) (C101_site C101_after).
Proof.
  apply ra_dir. repeat (constructor; [split; [reflexivity|]|]); [| |constructor].
  - apply ra_file; [exists (lit "page"); split; [reflexivity|]; split; [discriminate|vm_compute; intuition discriminate]|discriminate|].
    destruct (html_written C61_host [] (enc (lit C101_before)) [BText (lit "A"); C101_one; C101_two]) as (t & U & W); [vm_compute; reflexivity|].
    destruct (html_written C61_host [] (enc (lit C101_after)) [C101_two; BText (lit " and "); C101_one; BText (lit ".")]) as (t' & U' & W'); [vm_compute; reflexivity|].
    exists t, t', [BText (lit "A"); C101_one; C101_two], [C101_two; BText (lit " and "); C101_one; BText (lit ".")].
    split; [exact U|]. split; [exact U'|]. split; [exact W|]. split; [exact W'|exact C101_reordered].
  - apply ra_same.
Qed.
Example C101_entries page ks name b : ent_at (C101_site page) (ks ++ [name]) (EFile b) ->
  ks = [] /\ ((name = lit "page.html" /\ EFile b = C61_file page) \/ (name = lit "root.html" /\ EFile b = C61_file "<{{ insert(""t"") }}|{{ insert(""b"") }}>")).
Proof.
  intros A. destruct ks as [|k ks]; cbn [app] in A.
  - inversion A as [|? ? ? ? ? I A']; subst. destruct I as [I|[I|[]]]; injection I as <- <-; inversion A'; subst; (split; [reflexivity|]); [left|right]; split; reflexivity.
  - inversion A as [|? ? ? ? ? I A']; subst. destruct I as [I|[I|[]]]; injection I as <- <-; inversion A' as [? E0|]; destruct ks; discriminate.
Qed.
Example C101_plain page l : (page, l) = (C101_before, [BText (lit "A"); C101_one; C101_two]) \/ (page, l) = (C101_after, [C101_two; BText (lit " and "); C101_one; BText (lit ".")]) ->
  plain_site C61_host [] [] (lit "production") (C101_site page).
Proof.
  intros P. split; [repeat first [apply ed_file|apply ed_dir|constructor]; vm_compute; intuition discriminate|]. split.
  - intros ks name b t s ts A. apply C101_entries in A. destruct A as [-> [[-> A]|[-> A]]]; injection A as ->.
    + apply laid_html with (l := l); [exists (lit "page"); split; [reflexivity|]; split; [discriminate|vm_compute; intuition discriminate]| |];
        destruct P as [P|P]; injection P as -> ->; vm_compute; reflexivity.
    + apply laid_html with (l := [BText (lit "<"); BInsert (lit "t"); BText (lit "|"); BInsert (lit "b"); BText (lit ">")]); [exact root_ext|vm_compute; reflexivity|reflexivity].
  - split; [reflexivity|]. split; [exact C90_host_scalar|]. split; [intros ? ? ? ? []|]. split; [constructor|]. repeat (constructor; [left; reflexivity|]). constructor.
Qed.
Example C101_start : stuart := stuart_new (Config (lit "n") None true false false) [].
Example C101_builds_too : snd (build C61_host [] (lit "production") (SourceDir [] [] (Some (C101_site C101_after))) C101_start) = Ok tt.
Proof.
  refine (proj1 (C101_builds C61_host [] (lit "production") (SourceDir [] [] (Some (C101_site C101_before))) (SourceDir [] [] (Some (C101_site C101_after))) C101_start
    (C101_site C101_before) (C101_site C101_after) eq_refl eq_refl _ _ _ C101_rearranged) _).
  - intros pl f raw g [].
  - apply (C101_plain _ [BText (lit "A"); C101_one; C101_two]). now left.
  - apply (C101_plain _ [C101_two; BText (lit " and "); C101_one; BText (lit ".")]). now right.
  - vm_compute. reflexivity.
Qed.
(** What both print. *)
Example C101_printed page : page = C101_before \/ page = C101_after ->
  option_map (fun n => option_map (map (fun f => match f with NFile name o _ _ _ => (name, o) | _ => ([], []) end)) (n_children n))
    (st_output (fst (build C61_host [] (lit "production") (SourceDir [] [] (Some (C101_site page))) C101_start))) =
  Some (Some [(lit "page.html", enc (lit "<one|production>")); (lit "root.html", enc (lit "<{{ insert(""t"") }}|{{ insert(""b"") }}>"))]).
Proof. intros [-> | ->]; vm_compute; reflexivity. Qed.
(** Sections that ask for each other cannot change places: there is no such section yet. *)
Example C101_related : ~ unrelated (BSection (lit "t") [BText (lit "one")]) (BSection (lit "b") [BInsert (lit "t")]) /\
  snd (build C61_host [] (lit "production") (SourceDir [] [] (Some (C101_site "{{ begin(""t"") }}one{{ end(""t"") }}{{ begin(""b"") }}{{ insert(""t"") }}{{ end(""b"") }}"))) C101_start) = Ok tt /\
  snd (build C61_host [] (lit "production") (SourceDir [] [] (Some (C101_site "{{ begin(""b"") }}{{ insert(""t"") }}{{ end(""b"") }}{{ begin(""t"") }}one{{ end(""t"") }}"))) C101_start) <> Ok tt.
Proof.
  split; [|split; [vm_compute; reflexivity|vm_compute; discriminate]]. intros U. destruct (U (lit "t")) as [K _]. destruct K as [_ K]; [now left|]. apply K. now left.
Qed.
