(** NewSite.v -- the project [stuart new] makes is built (C63). *)

From Coq Require Import String List NArith ZArith Bool Lia.
From Verif Require Import Text Utf8 Json Base Syntax Parse Tree Interp Build Disk Cli Dev New.
From Verif Require Import SpecScope SpecRender SpecTemplate SpecLoop SpecBlocks SpecMarkdown SpecTree SpecDisk SpecProject SpecSite SpecNew.
From Verif Require Import TextFacts Utf8Facts ProjectFacts GrammarFacts SiteFacts SiteDisk NewFacts.
Import ListNotations.

(** ** The template *)
Definition head_text : text := lit
"
<title>Stuart</title>
".
Definition body_text : text := lit
"
<img src=""/lightning.png"" width=250>

<h2>Welcome to Stuart!</h2>

<p>
  Edit <code>content/index.html</code> and save to reload.
</p>
".
Definition between_text : text := [c_lf; c_lf].
Definition root_start : text := lit
"<html lang=""en"">
  
<head>
  <meta charset=""UTF-8"">
  <meta http-equiv=""X-UA-Compatible"" content=""IE=edge"">
  <meta name=""viewport"" content=""width=device-width, initial-scale=1.0"">
  <link rel=""stylesheet"" href=""style.css"">
  
  ".
Definition root_middle : text := lit
"
</head>

<body>
  <main>
    ".
Definition root_end : text := lit
"
  </main>
</body>

</html>".
Definition index_blocks : list block := [BSection (lit "head") [BText head_text]; BText between_text; BSection (lit "body") [BText body_text]].
Definition root_blocks : list block := [BText root_start; BInsert (lit "head"); BText root_middle; BInsert (lit "body"); BText root_end].
Lemma precede s : last s 0%N <> c_lbrace -> last s 0%N <> c_bslash -> can_precede_tag s.
Proof. intros A B u c ->. now rewrite last_last in A, B. Qed.
Lemma call_body ext name arg : name <> [] -> forallb (fun_point ext) name = true -> ~ In c_quote arg ->
  tag_body ext (GCall name [AStr arg] []) (name ++ [] ++ [c_lparen] ++ ([c_quote] ++ arg ++ [c_quote]) ++ [c_rparen]).
Proof.
  intros N F Q. apply tb_call; try assumption; try reflexivity.
  - repeat constructor. exact Q.
  - replace ([c_quote] ++ arg ++ [c_quote]) with ([] ++ ([c_quote] ++ arg ++ [c_quote]) ++ []) by now rewrite app_nil_r.
    refine (at_one [] _ _ [] _ _ (pt_pos _ _ (ar_str arg))); reflexivity.
Qed.
Lemma index_text : basic_index = escape [] ++ open_tag ++ [c_space] ++ (lit "begin" ++ [] ++ [c_lparen] ++ ([c_quote] ++ lit "head" ++ [c_quote]) ++ [c_rparen]) ++ [c_space] ++ close_tag ++
  escape head_text ++ open_tag ++ [c_space] ++ (lit "end" ++ [] ++ [c_lparen] ++ ([c_quote] ++ lit "head" ++ [c_quote]) ++ [c_rparen]) ++ [c_space] ++ close_tag ++
  escape between_text ++ open_tag ++ [c_space] ++ (lit "begin" ++ [] ++ [c_lparen] ++ ([c_quote] ++ lit "body" ++ [c_quote]) ++ [c_rparen]) ++ [c_space] ++ close_tag ++
  escape body_text ++ open_tag ++ [c_space] ++ (lit "end" ++ [] ++ [c_lparen] ++ ([c_quote] ++ lit "body" ++ [c_quote]) ++ [c_rparen]) ++ [c_space] ++ close_tag ++ escape [].
Proof. vm_compute. reflexivity. Qed.
Lemma root_text : basic_root = escape root_start ++ open_tag ++ [c_space] ++ (lit "insert" ++ [] ++ [c_lparen] ++ ([c_quote] ++ lit "head" ++ [c_quote]) ++ [c_rparen]) ++ [c_space] ++ close_tag ++
  escape root_middle ++ open_tag ++ [c_space] ++ (lit "insert" ++ [] ++ [c_lparen] ++ ([c_quote] ++ lit "body" ++ [c_quote]) ++ [c_rparen]) ++ [c_space] ++ close_tag ++ escape root_end.
Proof. vm_compute. reflexivity. Qed.
Ltac tag_here := apply tt_tag; [apply precede; discriminate|reflexivity|reflexivity|apply call_body; [discriminate|reflexivity|vm_compute; intuition discriminate]|].
Lemma index_written ext : written ext [] basic_index index_blocks.
Proof.
  exists [([], GCall (lit "begin") [AStr (lit "head")] []); (head_text, GCall (lit "end") [AStr (lit "head")] []);
          (between_text, GCall (lit "begin") [AStr (lit "body")] []); (body_text, GCall (lit "end") [AStr (lit "body")] [])], []. split.
  - apply canonical. rewrite index_text. do 4 tag_here. apply tt_end.
  - refine (tk_tag _ [] _ _ _ (TFun (FBegin (lit "head") true)) _ (de_builtin _ _ _ _ _ (bc_begin_s _)) _).
    refine (tk_tag _ head_text _ _ _ (TFun (FEnd (lit "head") true)) _ (de_builtin _ _ _ _ _ (bc_end_s _)) _).
    refine (tk_tag _ between_text _ _ _ (TFun (FBegin (lit "body") true)) _ (de_builtin _ _ _ _ _ (bc_begin_s _)) _).
    refine (tk_tag _ body_text _ _ _ (TFun (FEnd (lit "body") true)) _ (de_builtin _ _ _ _ _ (bc_end_s _)) _). exact (tk_end _ []).
Qed.
Lemma root_written ext : written ext [] basic_root root_blocks.
Proof.
  exists [(root_start, GCall (lit "insert") [AStr (lit "head")] []); (root_middle, GCall (lit "insert") [AStr (lit "body")] [])], root_end. split.
  - apply canonical. rewrite root_text. do 2 tag_here. apply tt_end.
  - refine (tk_tag _ root_start _ _ _ (TFun (FInsert (lit "head"))) _ (de_builtin _ _ _ _ _ (bc_insert _)) _).
    refine (tk_tag _ root_middle _ _ _ (TFun (FInsert (lit "body"))) _ (de_builtin _ _ _ _ _ (bc_insert _)) _). exact (tk_end _ root_end).
Qed.

(** ** The site *)
Definition fresh_content : ent := EDir [(lit "index.html", EFile (enc basic_index)); (lit "root.html", EFile (enc basic_root))].
Definition fresh_static (png : bytes) : ent := EDir [(lit "lightning.png", EFile png); (lit "style.css", EFile (enc basic_style))].
Lemma fresh_entries ks e : ent_at fresh_content ks e ->
  (ks, e) = ([], fresh_content) \/ (ks, e) = ([lit "index.html"], EFile (enc basic_index)) \/ (ks, e) = ([lit "root.html"], EFile (enc basic_root)).
Proof.
  intros A. inversion A as [|? k x ks' ? J A']; subst; [now left|]. right.
  destruct J as [J|[J|[]]]; injection J as <- <-; inversion A'; subst; tauto.
Qed.
Lemma static_entries png ks e : ent_at (fresh_static png) ks e ->
  (ks, e) = ([], fresh_static png) \/ (ks, e) = ([lit "lightning.png"], EFile png) \/ (ks, e) = ([lit "style.css"], EFile (enc basic_style)).
Proof.
  intros A. inversion A as [|? k x ks' ? J A']; subst; [now left|]. right.
  destruct J as [J|[J|[]]]; injection J as <- <-; inversion A'; subst; tauto.
Qed.
Section Fresh.
  Variable h : host.
  Variable vars : list (text * value).
  Let secs : sections := [(lit "head", enc head_text); (lit "body", enc body_text)].
  Lemma index_says : says h [] vars fresh_content index_blocks vars [] (enc head_text ++ enc between_text ++ enc body_text ++ []) secs.
  Proof.
    exists []. unfold index_blocks.
    refine (pr_section _ _ _ (lit "head") _ _ _ [] (enc head_text) [] [] _ [] _ (pr_simple _ _ _ (BText head_text) [] [] _ _ (enc head_text) [] [] [] _ _ (pr_nil _ _ _ _ _)) _);
      [apply sh_text, decoding; vm_compute; reflexivity|].
    refine (pr_simple _ _ _ (BText between_text) _ vars [] _ (enc between_text) [] _ [] _ _ _); [apply sh_text, decoding; vm_compute; reflexivity|].
    refine (pr_section _ _ _ (lit "body") _ _ _ _ (enc body_text) [] _ [] [] _ (pr_simple _ _ _ (BText body_text) [] [] _ _ (enc body_text) [] [] [] _ _ (pr_nil _ _ _ _ _)) (pr_nil _ _ _ _ _)).
    apply sh_text, decoding; vm_compute; reflexivity.
  Qed.
  Lemma root_says : says h [] vars fresh_content root_blocks vars secs (enc root_start ++ enc head_text ++ enc root_middle ++ enc body_text ++ enc root_end ++ []) secs.
  Proof.
    exists []. unfold root_blocks.
    refine (pr_simple _ _ _ (BText root_start) _ vars [] _ (enc root_start) [] _ [] _ _ _); [apply sh_text, decoding; vm_compute; reflexivity|].
    refine (pr_simple _ _ _ (BInsert (lit "head")) _ _ [] _ (enc head_text) [] _ [] _ _ _); [apply sh_insert; exists [], [(lit "body", enc body_text)]; split; [reflexivity|intros []]|].
    refine (pr_simple _ _ _ (BText root_middle) _ _ [] _ (enc root_middle) [] _ [] _ _ _); [apply sh_text, decoding; vm_compute; reflexivity|].
    refine (pr_simple _ _ _ (BInsert (lit "body")) _ _ [] _ (enc body_text) [] _ [] _ _ _);
      [apply sh_insert; exists [(lit "head", enc head_text)], []; split; [reflexivity|vm_compute; intuition discriminate]|].
    refine (pr_simple _ _ _ (BText root_end) _ _ [] _ (enc root_end) [] [] [] _ _ (pr_nil _ _ _ _ _)). apply sh_text, decoding; vm_compute; reflexivity.
  Qed.
  Lemma page_bytes : enc root_start ++ enc head_text ++ enc root_middle ++ enc body_text ++ enc root_end ++ [] = enc fresh_page.
  Proof. vm_compute. reflexivity. Qed.
  Lemma index_page : page_of_file h [] vars fresh_content [] (lit "index.html") (enc basic_index) (lit "index.html") (enc fresh_page).
  Proof.
    rewrite <- page_bytes.
    refine (pf_html _ _ _ _ [] (lit "index.html") _ basic_index index_blocks root_blocks _ secs _ secs _ _ _ _ _ index_says root_says).
    - exists (lit "index"). split; [reflexivity|]. split; [discriminate|vm_compute; intuition discriminate].
    - intros [E|E]; discriminate.
    - apply decoding; vm_compute; reflexivity.
    - apply index_written.
    - exists [], [], (enc basic_root), basic_root. split; [reflexivity|]. split; [eapply ea_child; [right; left; reflexivity|]; apply ea_here|].
      split; [intros a c e E; destruct a; [contradiction|discriminate]|]. split; [apply decoding; vm_compute; reflexivity|]. apply root_written.
  Qed.
  Lemma fresh_in_order : site_in_order h [] vars fresh_content.
  Proof.
    split; [eexists; reflexivity|]. split; [intros ks A; apply fresh_entries in A; intuition discriminate|]. intros ks name b A. apply fresh_entries in A.
    assert (NJ : forall s, last s 0%N <> 110%N -> ~ has_ext s (lit "json")).
    { intros s L (u & E & _). apply L. rewrite E. clear. induction u as [|x u IH]; [reflexivity|]. cbn [app last]. now destruct (u ++ _) eqn:Q; [destruct u|]. }
    destruct A as [A|[A|A]]; apply pair_equal_spec in A; destruct A as [A1 A2]; try discriminate A2; apply (app_inj_tail ks []) in A1;
      destruct A1 as [-> ->]; injection A2 as ->; (split; [|split; [|intros X; exfalso; revert X; apply NJ; discriminate]]).
    - do 2 eexists. exact index_page.
    - intros [X|X]; discriminate.
    - do 2 eexists. apply pf_copy. left. now left.
    - intros _. do 2 eexists. split; [|apply root_written]. apply decoding; vm_compute; reflexivity.
  Qed.
End Fresh.

(** ** Its pages *)
Lemma fresh_distinct : ent_distinct fresh_content.
Proof. repeat first [apply ed_file|apply ed_dir|constructor]; vm_compute; intuition discriminate. Qed.
Lemma fresh_output h osenv mode : exists m1 m2 s1 s2 s, st_output (fst (build h osenv mode (SourceDir [] [] (Some fresh_content)) (stuart_new config_default []))) =
  Some (NDir [] [NFile (lit "index.html") (enc fresh_page) PNone m1 s1; NFile (lit "root.html") (enc basic_root) PNone m2 s2] s).
Proof. do 5 eexists. vm_compute. reflexivity. Qed.
Lemma fresh_pages h osenv mode ks name o : published h [] (page_vars osenv mode) fresh_content ks name o ->
  (ks, name, o) = ([], lit "index.html", enc fresh_page) \/ (ks, name, o) = ([], lit "root.html", enc basic_root).
Proof.
  intros P. destruct (fresh_output h osenv mode) as (m1 & m2 & s1 & s2 & s & O).
  pose proof (site_builds h osenv mode (SourceDir [] [] (Some fresh_content)) (stuart_new config_default []) fresh_content eq_refl fresh_distinct (fresh_in_order h _)) as B.
  apply (proj2 (site_files h osenv mode _ _ fresh_content _ B O eq_refl fresh_distinct (fresh_in_order h _) ks name o)) in P.
  destruct P as (pc & m & src & A). remember (ks ++ [name]) as kk eqn:K.
  inversion A as [|? ? ? c ks' ? J A']; subst. clear A. match goal with H : _ :: _ = ks ++ [name] |- _ => rename H into K end.
  destruct J as [<-|[<-|[]]]; cbn [n_name] in K; inversion A'; subst; destruct ks as [|k [|k2 ks]]; cbn [app] in K; try discriminate K; try (injection K as <-); tauto.
Qed.
Lemma index_published h vars : published h [] vars fresh_content [] (lit "index.html") (enc fresh_page).
Proof. exists (lit "index.html"), (enc basic_index). split; [eapply ea_child; [left; reflexivity|]; apply ea_here|apply index_page]. Qed.
Definition fresh_files (png : bytes) : list (path * bytes) :=
  [([lit "index.html"], enc fresh_page); ([lit "lightning.png"], png); ([lit "style.css"], enc basic_style)].
Lemma fresh_stripped cf stem : ~ stripped cf (lit "index.html") PNone stem.
Proof. intros (_ & N & _). now apply N. Qed.
Lemma fresh_file_at h osenv mode cf png q o : file_at h [] (page_vars osenv mode) fresh_content cf (fresh_static png) q o <-> In (q, o) (fresh_files png).
Proof.
  split.
  - intros [(ks & name & P & H & S)|[A _]].
    + apply fresh_pages in P. destruct P as [P|P]; apply pair_equal_spec in P; destruct P as [P ->]; apply pair_equal_spec in P; destruct P as [-> ->].
      * inversion S as [? s' Q|? s' Q E|? Q]; subst; try (now apply fresh_stripped in Q). now left.
      * exfalso. apply H. left. now left.
    + apply static_entries in A. destruct A as [A|[A|A]]; apply pair_equal_spec in A; destruct A as [-> A]; try discriminate A; injection A as ->; cbn; tauto.
  - assert (NH : forall k, (last k 0 <> 108)%N -> (last k 0 <> 110)%N -> ~ hidden cf k).
    { intros k L1 L2 [[-> | ->]|(_ & s & ->)]; [now apply L1|now apply L1|]. apply L2. clear. induction s as [|x s IH]; [reflexivity|]. cbn [app last]. now destruct (s ++ _) eqn:Q; [destruct s|]. }
    intros [E|[E|[E|[]]]]; injection E as <- <-.
    + left. exists [], (lit "index.html"). split; [apply index_published|]. split; [intros [[X|X]|(_ & s & X)]; try discriminate|].
      * assert (L : last (lit "index.html") 0%N = 108%N) by reflexivity. rewrite X in L. revert L. clear. induction s as [|x s IH]; [discriminate|]. cbn [app last]. now destruct (s ++ _) eqn:Q; [destruct s|].
      * apply sa_whole. intros stem. apply fresh_stripped.
    + right. split; [eapply ea_child; [left; reflexivity|]; apply ea_here|]. intros ks k E. apply (app_inj_tail [] ks) in E. destruct E as [_ <-]. apply NH; discriminate.
    + right. split; [eapply ea_child; [right; left; reflexivity|]; apply ea_here|]. intros ks k E. apply (app_inj_tail [] ks) in E. destruct E as [_ <-]. apply NH; discriminate.
Qed.
Lemma fresh_no_overlap h osenv mode cf png : no_overlap h [] (page_vars osenv mode) fresh_content cf (fresh_static png).
Proof.
  split.
  - intros q o o' P P'. apply fresh_file_at in P, P'. destruct P as [P|[P|[P|[]]]], P' as [P'|[P'|[P'|[]]]]; apply pair_equal_spec in P, P'; destruct P as [<- <-], P' as [E <-]; reflexivity || discriminate E.
  - intros q o P D. apply fresh_file_at in P. destruct D as [[[l A]|(ks & name & o' & stem & Pb & H & S & E)]|[l A]].
    + apply fresh_entries in A. destruct P as [P|[P|[P|[]]]]; apply pair_equal_spec in P; destruct P as [<- _]; intuition discriminate.
    + apply fresh_pages in Pb. destruct Pb as [Pb|Pb]; apply pair_equal_spec in Pb; destruct Pb as [Pb _]; apply pair_equal_spec in Pb; destruct Pb as [_ ->]; [now apply fresh_stripped in S|]. apply H. left. now left.
    + apply static_entries in A. destruct P as [P|[P|[P|[]]]]; apply pair_equal_spec in P; destruct P as [<- _]; intuition discriminate.
Qed.
Lemma fresh_no_conflict h osenv mode png : no_conflict h [] (page_vars osenv mode) fresh_content (fresh_static png).
Proof.
  split.
  - intros ks name e o A P. apply static_entries in A. apply fresh_pages in P.
    destruct P as [P|P]; apply pair_equal_spec in P; destruct P as [P _]; apply pair_equal_spec in P; destruct P as [-> ->];
      destruct A as [A|[A|A]]; apply pair_equal_spec in A; destruct A as [A _]; discriminate A.
  - intros ks b l A B. apply static_entries in A. apply fresh_entries in B. destruct A as [A|[A|A]]; apply pair_equal_spec in A; destruct A as [-> A]; try discriminate A; intuition discriminate.
Qed.

(** ** The new project is built *)
Lemma new_builds png toml g no_git cwd name d m r mode : let p := join_path cwd name in p <> [] -> what p d = KNone -> what (parent p) d = KDir ->
  no_git = true \/ (only_git (g_init g) /\ relative name) -> ent_distinct d -> rc_settings r = None ->
  exists d1 c' d', new_site (basic_site png toml) g no_git None None cwd name d = (d1, Ok tt) /\
    cli_build m no_faults (init r [] p (lit "dist") mode d1) d1 = (c', d', COk) /\
    forall q o, what (p ++ [lit "dist"] ++ q) d' = KFile o <-> In (q, o) (fresh_files png).
Proof.
  cbn zeta. set (p := join_path cwd name). intros NE W P G D RS.
  destruct (new_made png toml g no_git cwd name d NE W P G) as (d1 & N & SO & WN & _ & LC & LS & D1). fold p in N, SO, WN, LC, LS.
  assert (W1 : forall k r, text_eqb k (lit ".git") = false -> what (p ++ k :: r) d1 = what (k :: r) (fresh g no_git name png)).
  { intros k s E. apply WN. intros [s' A]. injection A as ->. now rewrite text_eqb_refl in E. }
  assert (PD : what p d1 = KDir). { rewrite <- (app_nil_r p) at 1. rewrite WN; [reflexivity|]. intros [s A]. discriminate. }
  assert (NO : forall k, text_eqb k (lit ".git") = false -> what [k] (fresh g no_git name png) = KNone -> lookup (p ++ [k]) d1 = None).
  { intros k E1 E2. apply what_none. now rewrite W1. }
  assert (SC : lookup (p ++ [lit "scripts"]) d1 = None) by (apply NO; [reflexivity|destruct no_git; reflexivity]).
  assert (TM : lookup (p ++ [lit "temp"]) d1 = None) by (apply NO; [reflexivity|destruct no_git; reflexivity]).
  assert (DI : lookup (p ++ [lit "dist"]) d1 = None) by (apply NO; [reflexivity|destruct no_git; reflexivity]).
  set (c := init r [] p (lit "dist") mode d1).
  assert (CD : cx_dir c = p) by reflexivity.
  assert (OD : output_dir c = p ++ [lit "dist"]) by reflexivity.
  assert (LC' : lookup (cx_dir c ++ [lit "content"]) d1 = Some fresh_content) by (rewrite CD, LC; destruct no_git; reflexivity).
  assert (LS' : lookup (cx_dir c ++ [lit "static"]) d1 = Some (fresh_static png)) by (rewrite CD, LS; destruct no_git; reflexivity).
  destruct (project_built m c d1 fresh_content (fresh_static png)) as (c' & d' & B & F).
  - unfold c, init. cbn [cx_pre]. now rewrite SC.
  - unfold c, init. cbn [cx_post]. now rewrite SC.
  - unfold c, init, stuart_new, to_config, setting. cbn. now rewrite RS.
  - exact LC'.
  - now left.
  - exact TM.
  - now apply D1.
  - split; [|split; [|split; [|reflexivity]]]; intros e L; rewrite ?LC', ?LS', ?TM in L; try (rewrite CD, TM in L); try discriminate; injection L as <-;
      repeat first [constructor|discriminate|now vm_compute; intuition discriminate].
  - apply fresh_in_order.
  - split; [eexists; reflexivity|]. intros ks A. apply static_entries in A. intuition discriminate.
  - apply fresh_no_conflict.
  - apply fresh_no_overlap.
  - rewrite OD. now destruct p.
  - rewrite OD, parent_app by discriminate. change (parent [lit "dist"]) with (@nil text). now rewrite app_nil_r.
  - left. rewrite OD. now apply what_none.
  - exists d1, c', d'. split; [exact N|]. split; [exact B|]. intros q o. rewrite app_assoc, <- OD, F. apply fresh_file_at.
Qed.
