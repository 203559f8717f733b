(** PropSwap.v -- property C91: templates may be rewritten with other blocks that print the same. *)

From Coq Require Import String List NArith ZArith Bool Lia.
From Verif Require Import Text Utf8 Json Base Syntax Parse Tree Interp Build Disk Cli.
From Verif Require Import SpecScope SpecUtf8 SpecRender SpecTemplate SpecLoop SpecBlocks SpecMarkdown SpecTree SpecDisk SpecProject SpecSite SpecExact SpecSwap.
From Verif Require Import Utf8Facts SelectFacts GrammarFacts SiteFacts ExactFacts PropSite PropExact SwapFacts SwapLaws.
Import ListNotations.

(** In memory: the one site can be built if, and only if, the other can. *)
Theorem C91_builds : forall h osenv mode d d' st content content', sd_ent d = Some content -> sd_ent d' = Some content' ->
  plain_site h (st_plugins st) osenv mode content -> plain_site h (st_plugins st) osenv mode content' ->
  swapped_site h (st_plugins st) (page_vars osenv mode) content content' ->
  (snd (build h osenv mode d st) = Ok tt <-> snd (build h osenv mode d' st) = Ok tt).
Proof. exact builds_same. Qed.
Print Assumptions C91_builds.
(** Both have the same pages. *)
Theorem C91_pages : forall h osenv mode d d' st content content' out out', sd_ent d = Some content -> sd_ent d' = Some content' ->
  ent_distinct content -> ent_distinct content' -> site_in_order h (st_plugins st) (page_vars osenv mode) content ->
  swapped_site h (st_plugins st) (page_vars osenv mode) content content' ->
  snd (build h osenv mode d st) = Ok tt /\ snd (build h osenv mode d' st) = Ok tt /\
  (st_output (fst (build h osenv mode d st)) = Some out -> st_output (fst (build h osenv mode d' st)) = Some out' ->
   forall ks name o, ~ is_template name ->
     ((exists pc m src, at_names out (ks ++ [name]) (NFile name o pc m src)) <-> (exists pc m src, at_names out' (ks ++ [name]) (NFile name o pc m src)))).
Proof. exact pages_same. Qed.
Print Assumptions C91_pages.
(** On the disk: the output directories have the same files with the same bytes. *)
Theorem C91_project : forall m c d d' content content' statics, cx_pre c = [] -> cx_post c = [] -> cf_meta (st_config (cx_stuart c)) = false ->
  project_ready c d content statics -> project_ready c d' content' statics ->
  no_conflict (m_host m) (st_plugins (cx_stuart c)) (page_vars (m_osenv m) (cx_mode c)) content statics ->
  no_overlap (m_host m) (st_plugins (cx_stuart c)) (page_vars (m_osenv m) (cx_mode c)) content (st_config (cx_stuart c)) statics ->
  site_in_order (m_host m) (st_plugins (cx_stuart c)) (page_vars (m_osenv m) (cx_mode c)) content ->
  swapped_site (m_host m) (st_plugins (cx_stuart c)) (page_vars (m_osenv m) (cx_mode c)) content content' ->
  exists c1 d1 c2 d2, cli_build m no_faults c d = (c1, d1, COk) /\ cli_build m no_faults c d' = (c2, d2, COk) /\
    forall q o, what (output_dir c ++ q) d1 = KFile o <-> what (output_dir c ++ q) d2 = KFile o.
Proof. exact project_same. Qed.
Print Assumptions C91_project.

(** Blocks that print the same: a conditional and the same with an empty second branch; ... *)
Theorem C91_else : forall h J P c yes, interchangeable (h_date h) J P [BIf c yes] [BIfElse c yes []].
Proof. exact empty_else. Qed.
Print Assumptions C91_else.
(** ... [ifeq] and [ifne] with the branches exchanged; ... *)
Theorem C91_negate : forall h J P a b yes no,
  interchangeable (h_date h) J P [BIfElse (TCompare CEq a b) yes no] [BIfElse (TCompare CNe a b) no yes].
Proof. exact eq_ne. Qed.
Print Assumptions C91_negate.
(** ... comparisons with the operands exchanged; ... *)
Theorem C91_turn : forall h J P c c' a b, turned c = Some c' -> forall yes no,
  interchangeable (h_date h) J P [BIf (TCompare c a b) yes] [BIf (TCompare c' b a) yes] /\
  interchangeable (h_date h) J P [BIfElse (TCompare c a b) yes no] [BIfElse (TCompare c' b a) yes no].
Proof. exact turn. Qed.
Print Assumptions C91_turn.
(** ... a loop over a directory or a JSON file and two loops, the first of which stops after some
    values and the second of which skips these, if there are more. *)
Theorem C91_two_loops : forall h ps vars content f n body, ent_distinct content -> (0 < n)%N -> ff_type f <> SrcVar ->
  (forall sc vs out, loop_over (site_json h content) (site_posts h ps vars content) f sc vs -> visits f vs out -> (n < N.of_nat (length out))%N) ->
  interchangeable (h_date h) (site_json h content) (site_posts h ps vars content) [BFor f body] [BFor (first_part n f) body; BFor (second_part n f) body].
Proof. exact posts_two_loops. Qed.
Print Assumptions C91_two_loops.
(** And [skip=0] may be left out, as well as a limit that is not reached. *)
Theorem C91_skip : forall h J P f body, ff_skip f = Some 0%N -> interchangeable (h_date h) J P [BFor f body] [BFor (no_skip f) body].
Proof. exact skip_zero. Qed.
Print Assumptions C91_skip.
Theorem C91_limit : forall h J P f n body, ff_limit f = Some n ->
  (forall sc vs out, loop_over J P f sc vs -> visits (no_limit f) vs out -> (N.of_nat (length out) <= n)%N) ->
  interchangeable (h_date h) J P [BFor f body] [BFor (no_limit f) body].
Proof. exact limit_large. Qed.
Print Assumptions C91_limit.

(** The site of C61, with the list of its two posts printed by two loops. *)
Example C91_page : string :=
  "{{ begin(""b"") }}{{ for($p, ""posts/"", limit=1) }}{{ $p.t }};{{ end(for) }}{{ for($p, ""posts/"", skip=1) }}{{ $p.t }};{{ end(for) }}{{ end(""b"") }}".
Example C91_content : ent := EDir
  [(lit "list.html", C61_file C91_page); (lit "md.html", C61_file "{{ begin(""b"") }}{{ $self.content }}{{ end(""b"") }}");
   (lit "posts", EDir C61_posts); (lit "root.html", C61_file "<{{ insert(""b"") }}>")].
Example C91_loop : for_fn := ForFn (lit "p") (lit "posts/") SrcDir None None None false.
Example C91_two_posts vars : site_posts C61_host [] vars C61_content (lit "posts/") [C61_values "A"; C61_values "B"].
Proof.
  exists [lit "posts"], C61_posts. split; [|split].
  - exists (lit "posts"), [[]]. split; [reflexivity|]. split; [repeat constructor; vm_compute; intuition discriminate|]. split; [discriminate|].
    apply pn_keep; try discriminate. apply pn_skip; [now left|apply pn_nil].
  - eapply ea_child; [do 2 right; left; reflexivity|]. apply ea_here.
  - apply ep_post; [exists (lit "a"); split; [reflexivity|]; split; [discriminate|vm_compute; intuition discriminate]|apply C61_one_post; now left|].
    apply ep_post; [exists (lit "b"); split; [reflexivity|]; split; [discriminate|vm_compute; intuition discriminate]|apply C61_one_post; now right|]. apply ep_nil.
Qed.
Example C91_more_than_one vars sc vs out : loop_over (site_json C61_host C61_content) (site_posts C61_host [] vars C61_content) C91_loop sc vs -> visits C91_loop vs out ->
  (1 < N.of_nat (length out))%N.
Proof.
  intros L V. inversion L as [? _ Po|? X|? X]; try discriminate X. assert (D : ent_distinct C61_content) by exact (proj1 C90_plain).
  rewrite (site_posts_one _ _ _ _ D _ _ _ Po (C91_two_posts vars)) in V. rewrite (visits_unique _ _ _ _ V (select_visits _ _)). reflexivity.
Qed.
Example C91_swapped vars : swapped_site C61_host [] vars C61_content C91_content.
Proof.
  apply sw_dir. repeat (constructor; [split; [reflexivity|]|]); [| | | |constructor].
  - apply sw_file; [exists (lit "list"); split; [reflexivity|]; split; [discriminate|vm_compute; intuition discriminate]|].
    apply written_swap with (l := [BSection (lit "b") [BFor C91_loop [BVar (lit "p.t"); BText (lit ";")]]])
      (l' := [BSection (lit "b") [BFor (first_part 1 C91_loop) [BVar (lit "p.t"); BText (lit ";")]; BFor (second_part 1 C91_loop) [BVar (lit "p.t"); BText (lit ";")]]]);
      [vm_compute; reflexivity|vm_compute; reflexivity|].
    apply rw_section, rw_swap, C91_two_loops; [exact (proj1 C90_plain)|reflexivity|discriminate|apply C91_more_than_one].
  - apply sw_same.
  - apply sw_dir. repeat (constructor; [split; [reflexivity|apply sw_same]|]). constructor.
  - apply sw_same.
Qed.
Example C91_disk : ent := EDir [(lit "p", EDir [(lit "stuart.toml", EFile []); (lit "content", C91_content); (lit "static", C62_statics); (lit "dist", EDir [(lit "old", EFile [])])])].
Example C91_ready d content : (d, content) = (C62_disk, C61_content) \/ (d, content) = (C91_disk, C91_content) -> project_ready C61_project d content C62_statics.
Proof.
  intros [E|E]; injection E as -> ->; (split; [reflexivity|]; split; [now left|]; split; [reflexivity|]; split;
    [repeat first [apply ed_file|apply ed_dir|constructor]; vm_compute; intuition discriminate|]; split;
    [split; [|split; [|split; [|reflexivity]]]; intros e L; vm_compute in L; try discriminate; injection L as <-;
       repeat first [constructor|discriminate|now vm_compute; intuition discriminate]|]; split;
    [split; [eexists; reflexivity|]; intros ks A; apply C62_static_entries in A; intuition discriminate|]; split; [discriminate|]; split; [reflexivity|now right]).
Qed.
Example C91_same_site : exists c1 d1 c2 d2, cli_build C61_machine no_faults C61_project C62_disk = (c1, d1, COk) /\ cli_build C61_machine no_faults C61_project C91_disk = (c2, d2, COk) /\
  forall q o, what ([lit "p"; lit "dist"] ++ q) d1 = KFile o <-> what ([lit "p"; lit "dist"] ++ q) d2 = KFile o.
Proof.
  apply (C91_project C61_machine C61_project C62_disk C91_disk C61_content C91_content C62_statics); try reflexivity.
  - apply C91_ready. now left.
  - apply C91_ready. now right.
  - exact C62_no_conflict.
  - exact (C62_no_overlap false).
  - exact C62_in_order.
  - apply C91_swapped.
Qed.
(** The two sites are not the same; the list of the second has both posts, too. *)
Example C91_differ : C61_content <> C91_content /\
  what [lit "p"; lit "dist"; lit "list"; lit "index.html"] (snd (fst (cli_build C61_machine no_faults C61_project C91_disk))) = KFile (enc (lit "<A;B;>")).
Proof. split; [intros E; injection E as E; discriminate E|vm_compute; reflexivity]. Qed.
(** Its two posts are not cut off by a limit of five, nor any by [skip=0]. *)
Example C91_limited vars body : rewritten None (site_json C61_host C61_content) (site_posts C61_host [] vars C61_content)
  [BFor (ForFn (lit "p") (lit "posts/") SrcDir (Some 0%N) (Some 5%N) None false) body] [BFor C91_loop body].
Proof.
  apply rw_trans with (b := [BFor (ForFn (lit "p") (lit "posts/") SrcDir None (Some 5%N) None false) body]); apply rw_swap.
  - exact (C91_skip C61_host _ _ (ForFn (lit "p") (lit "posts/") SrcDir (Some 0%N) (Some 5%N) None false) body eq_refl).
  - apply (C91_limit C61_host _ _ (ForFn (lit "p") (lit "posts/") SrcDir None (Some 5%N) None false) 5%N body eq_refl).
    intros sc vs out L V. inversion L as [? _ Po|? X|? X]; try discriminate X. assert (D : ent_distinct C61_content) by exact (proj1 C90_plain).
    rewrite (site_posts_one _ _ _ _ D _ _ _ Po (C91_two_posts vars)) in V. rewrite (visits_unique _ _ _ _ V (select_visits _ _)). vm_compute. discriminate.
Qed.
