(** PropRelabel.v -- property C108: the names of sections. *)

From Coq Require Import String List NArith ZArith Bool Lia.
From Verif Require Import Text TextFacts Utf8 Json Base Syntax Parse Tree Interp Build Disk Cli Js.
From Verif Require Import SpecScope SpecUtf8 SpecRender SpecTemplate SpecLoop SpecBlocks SpecMarkdown SpecTree SpecDisk SpecProject SpecSite SpecExact SpecSwap SpecRelabel.
From Verif Require Import Utf8Facts SelectFacts GrammarFacts CliFacts SiteFacts ExactFacts PropSite PropExact SwapFacts SwapLaws RelabelFacts.
From Verif Require Import TreeFacts.
Import ListNotations.

(** In memory: the one site can be built if, and only if, the other can. *)
Theorem C108_builds : forall h osenv mode d d' st content content' rho rho', sd_ent d = Some content -> sd_ent d' = Some content' ->
  plain_site h (st_plugins st) osenv mode content -> plain_site h (st_plugins st) osenv mode content' ->
  undone rho rho' -> relabelled h (st_plugins st) rho [] content content' ->
  (snd (build h osenv mode d st) = Ok tt <-> snd (build h osenv mode d' st) = Ok tt).
Proof. exact builds_relabelled. Qed.
Print Assumptions C108_builds.
(** Both have the same pages. *)
Theorem C108_pages : forall h osenv mode d d' st content content' out out' rho rho', sd_ent d = Some content -> sd_ent d' = Some content' ->
  ent_distinct content -> ent_distinct content' -> site_in_order h (st_plugins st) (page_vars osenv mode) content ->
  undone rho rho' -> relabelled h (st_plugins st) rho [] content content' ->
  snd (build h osenv mode d st) = Ok tt /\ snd (build h osenv mode d' st) = Ok tt /\
  (st_output (fst (build h osenv mode d st)) = Some out -> st_output (fst (build h osenv mode d' st)) = Some out' ->
   forall ks name o, ~ is_template name ->
     ((exists pc m src, at_names out (ks ++ [name]) (NFile name o pc m src)) <-> (exists pc m src, at_names out' (ks ++ [name]) (NFile name o pc m src)))).
Proof. exact pages_relabelled. Qed.
Print Assumptions C108_pages.
(** On the disk: the output directories have the same files with the same bytes. *)
Theorem C108_project : forall m c d d' content content' statics rho rho', cx_pre c = [] -> cx_post c = [] -> cf_meta (st_config (cx_stuart c)) = false ->
  project_ready c d content statics -> project_ready c d' content' statics ->
  no_conflict (m_host m) (st_plugins (cx_stuart c)) (page_vars (m_osenv m) (cx_mode c)) content statics ->
  no_overlap (m_host m) (st_plugins (cx_stuart c)) (page_vars (m_osenv m) (cx_mode c)) content (st_config (cx_stuart c)) statics ->
  site_in_order (m_host m) (st_plugins (cx_stuart c)) (page_vars (m_osenv m) (cx_mode c)) content ->
  undone rho rho' -> relabelled (m_host m) (st_plugins (cx_stuart c)) rho [] content content' ->
  exists c1 d1 c2 d2, cli_build m no_faults c d = (c1, d1, COk) /\ cli_build m no_faults c d' = (c2, d2, COk) /\
    forall q o, what (output_dir c ++ q) d1 = KFile o <-> what (output_dir c ++ q) d2 = KFile o.
Proof. exact project_relabelled. Qed.
Print Assumptions C108_project.
(** Functions written in JavaScript may be called in the templates. *)
Theorem C108_plugins : forall name code r p, pp_parse (js_plugin_parser name code) r = inr p -> sections_unseen (BPlugin p).
Proof. exact js_unseen. Qed.
Print Assumptions C108_plugins.

(** The section [b] of the example of C61 is called [main]. *)
Example C108_rho (s : text) : text := if text_eqb s (lit "b") then lit "main" else if text_eqb s (lit "main") then lit "b" else s.
Example C108_undone : undone C108_rho C108_rho.
Proof.
  assert (X : forall s, C108_rho (C108_rho s) = s); [|now split]. intros s. unfold C108_rho.
  destruct (CliFacts.text_eqb_spec s (lit "b")) as [->|N]; [reflexivity|]. destruct (CliFacts.text_eqb_spec s (lit "main")) as [->|M]; [reflexivity|].
  destruct (CliFacts.text_eqb_spec s (lit "b")) as [->|_]; [contradiction|]. destruct (CliFacts.text_eqb_spec s (lit "main")) as [->|_]; [contradiction|reflexivity].
Qed.
Example C108_page : string := "{{ begin(""main"") }}{{ for($p, ""posts/"") }}{{ $p.t }};{{ end(for) }}{{ end(""main"") }}".
Example C108_content : ent := EDir
  [(lit "list.html", C61_file C108_page); (lit "md.html", C61_file "{{ begin(""main"") }}{{ $self.content }}{{ end(""main"") }}");
   (lit "posts", EDir C61_posts); (lit "root.html", C61_file "<{{ insert(""main"") }}>")].
Example C108_text b b' l : match from_utf8 b with
  | Some t => match parse_html (h_ext C61_host) (fns []) [] t with Ok toks => map t_inner toks = flat_map tags l | _ => False end
  | None => False
  end -> match from_utf8 b' with
  | Some t => match parse_html (h_ext C61_host) (fns []) [] t with Ok toks => map t_inner toks = flat_map tags (map (relabel C108_rho) l) | _ => False end
  | None => False
  end -> Forall sections_unseen l -> relabelled_text C61_host [] C108_rho b b'.
Proof. intros X Y C. apply html_written in X, Y. destruct X as (t & U & W). destruct Y as (t' & U' & W'). exists t, t', l. repeat split; assumption. Qed.
Example C108_relabelled : relabelled C61_host [] C108_rho [] C61_content C108_content.
Proof.
  apply rb_dir. repeat (constructor; [split; [reflexivity|]|]); [| | | |constructor].
  - apply rb_file; [exists (lit "list"); repeat split; [discriminate|vm_compute; intuition discriminate]|].
    apply C108_text with (l := [BSection (lit "b") [BFor (ForFn (lit "p") (lit "posts/") SrcDir None None None false) [BVar (lit "p.t"); BText (lit ";")]]]);
      [vm_compute; reflexivity|vm_compute; reflexivity|repeat constructor].
  - apply rb_file; [exists (lit "md"); repeat split; [discriminate|vm_compute; intuition discriminate]|].
    apply C108_text with (l := [BSection (lit "b") [BVar (lit "self.content")]]); [vm_compute; reflexivity|vm_compute; reflexivity|repeat constructor].
  - assert (N : forall k, k <> [] -> ~ has_ext (k ++ lit ".md") (lit "html")).
    { intros k K X. assert (Y : has_ext (k ++ lit ".md") (lit "md")) by (exists k; repeat split; [exact K|vm_compute; intuition discriminate]). discriminate (has_ext_unique _ _ _ X Y). }
    apply rb_dir. apply Forall2_cons; [split; [reflexivity|]|apply Forall2_cons; [split; [reflexivity|]|apply Forall2_nil]].
    + apply rb_same. now apply (N (lit "a")).
    + apply rb_same. now apply (N (lit "b")).
  - apply rb_file; [exact root_ext|].
    apply C108_text with (l := [BText (lit "<"); BInsert (lit "b"); BText (lit ">")]); [vm_compute; reflexivity|vm_compute; reflexivity|repeat constructor].
Qed.
Example C108_disk : ent := EDir [(lit "p", EDir [(lit "stuart.toml", EFile []); (lit "content", C108_content); (lit "static", C62_statics); (lit "dist", EDir [(lit "old", EFile [])])])].
Example C108_ready d content : (d, content) = (C62_disk, C61_content) \/ (d, content) = (C108_disk, C108_content) -> project_ready C61_project d content C62_statics.
Proof.
  intros [E|E]; injection E as -> ->; (split; [reflexivity|]; split; [now left|]; split; [reflexivity|]; split;
    [repeat first [apply ed_file|apply ed_dir|constructor]; vm_compute; intuition discriminate|]; split;
    [split; [|split; [|split; [|reflexivity]]]; intros e L; vm_compute in L; try discriminate; injection L as <-;
       repeat first [constructor|discriminate|now vm_compute; intuition discriminate]|]; split;
    [split; [eexists; reflexivity|]; intros ks A; apply C62_static_entries in A; intuition discriminate|]; split; [discriminate|]; split; [reflexivity|now right]).
Qed.
Example C108_same_site : exists c1 d1 c2 d2, cli_build C61_machine no_faults C61_project C62_disk = (c1, d1, COk) /\ cli_build C61_machine no_faults C61_project C108_disk = (c2, d2, COk) /\
  forall q o, what ([lit "p"; lit "dist"] ++ q) d1 = KFile o <-> what ([lit "p"; lit "dist"] ++ q) d2 = KFile o.
Proof.
  apply (C108_project C61_machine C61_project C62_disk C108_disk C61_content C108_content C62_statics C108_rho C108_rho); try reflexivity.
  - apply C108_ready. now left.
  - apply C108_ready. now right.
  - exact C62_no_conflict.
  - exact (C62_no_overlap false).
  - exact C62_in_order.
  - exact C108_undone.
  - exact C108_relabelled.
Qed.
Example C108_differ : C61_content <> C108_content /\
  what [lit "p"; lit "dist"; lit "list"; lit "index.html"] (snd (fst (cli_build C61_machine no_faults C61_project C108_disk))) = KFile (enc (lit "<A;B;>")).
Proof. split; [intros E; injection E as E; discriminate E|vm_compute; reflexivity]. Qed.
(** Two sections may not get the same name. *)
Example C108_merged :
  let site page root := SourceDir [] [] (Some (EDir [(lit "page.html", C61_file page); (lit "root.html", C61_file root)])) in
  let pages d := option_map (fun n => option_map (map (fun f => match f with NFile name o _ _ _ => (name, o) | _ => ([], []) end)) (n_children n))
    (st_output (fst (build C61_host [] (lit "production") d (stuart_new (Config (lit "n") None true false false) [])))) in
  (exists r, pages (site "{{ begin(""a"") }}1{{ end(""a"") }}{{ begin(""b"") }}2{{ end(""b"") }}" "{{ insert(""a"") }}{{ insert(""b"") }}")%string = Some (Some ((lit "page.html", enc (lit "12")) :: r))) /\
  (exists r, pages (site "{{ begin(""a"") }}1{{ end(""a"") }}{{ begin(""a"") }}2{{ end(""a"") }}" "{{ insert(""a"") }}{{ insert(""a"") }}")%string = Some (Some ((lit "page.html", enc (lit "11")) :: r))).
Proof.
  split; [exists [(lit "root.html", enc (lit "{{ insert(""a"") }}{{ insert(""b"") }}"))]|exists [(lit "root.html", enc (lit "{{ insert(""a"") }}{{ insert(""a"") }}"))]]; vm_compute; reflexivity.
Qed.
