(** PropLocal.v -- property C72: which files a page depends on. *)

From Coq Require Import String List NArith ZArith Bool.
From Verif Require Import Text Utf8 Json Base Syntax Parse Tree Interp Build.
From Verif Require Import SpecTree SpecSite SpecLocal.
From Verif Require Import Utf8Facts LocalFacts.
Import ListNotations.

(** ** C72 *)
(** Two builds of content directories with the same directories, markdown files and JSON files: what
    a file that is in both gives is the same, if the templates of its directory are. *)
Theorem C72_local_partial : forall h osenv mode d d' st st' e e' out out',
  snd (build h osenv mode d st) = Ok tt -> st_output (fst (build h osenv mode d st)) = Some out -> sd_ent d = Some e ->
  snd (build h osenv mode d' st') = Ok tt -> st_output (fst (build h osenv mode d' st')) = Some out' -> sd_ent d' = Some e' ->
  sd_path d' = sd_path d -> sd_name d' = sd_name d -> st_plugins st' = st_plugins st -> ent_distinct e -> ent_distinct e' -> same_data e e' ->
  forall ks name b, ent_at e (ks ++ [name]) (EFile b) -> ent_at e' (ks ++ [name]) (EFile b) -> same_templates e e' ks ->
  forall nm o, page_from out ks (sd_path d ++ ks ++ [name]) nm o -> page_from out' ks (sd_path d ++ ks ++ [name]) nm o.
Proof. exact local_page. Qed.
Print Assumptions C72_local_partial.
(** So editing one file that is neither markdown nor JSON changes what that file gives and, if it is
    a template, what the files of its directory and those below give; nothing else. *)
Theorem C72_edit_partial : forall h osenv mode d d' st st' e e' out out' qs qn,
  snd (build h osenv mode d st) = Ok tt -> st_output (fst (build h osenv mode d st)) = Some out -> sd_ent d = Some e ->
  snd (build h osenv mode d' st') = Ok tt -> st_output (fst (build h osenv mode d' st')) = Some out' -> sd_ent d' = Some e' ->
  sd_path d' = sd_path d -> sd_name d' = sd_name d -> st_plugins st' = st_plugins st -> ent_distinct e -> edited qs qn e e' ->
  ~ has_ext qn (lit "md") -> ~ has_ext qn (lit "json") ->
  forall ks name b, ks ++ [name] <> qs ++ [qn] -> (is_template qn -> forall ks2, ks <> qs ++ ks2) -> ent_at e (ks ++ [name]) (EFile b) ->
  forall nm o, page_from out ks (sd_path d ++ ks ++ [name]) nm o <-> page_from out' ks (sd_path d ++ ks ++ [name]) nm o.
Proof. exact edit_page. Qed.
Print Assumptions C72_edit_partial.

(** A site with a post, a page listing it and another page; the template of [sub] is edited. *)
Example C72_host : host := Host (fun _ => false) (fun t => lit "<p>" ++ t ++ lit "</p>") None (fun _ => None).
Example C72_file (t : string) : text -> text * ent := fun name => (name, EFile (enc (lit t))).
Example C72_nl : string := String (Ascii.ascii_of_nat 10) EmptyString.
Example C72_post : string := ("---" ++ C72_nl ++ "t: ""A""" ++ C72_nl ++ "---" ++ C72_nl ++ "hi")%string.
Example C72_list : string := "{{ begin(""b"") }}{{ for($p, ""posts/"") }}{{ $p.t }};{{ end(for) }}{{ end(""b"") }}".
Example C72_before : list (text * ent) :=
  [C72_file C72_list (lit "list.html"); C72_file "{{ begin(""b"") }}{{ $self.content }}{{ end(""b"") }}" (lit "md.html");
   (lit "posts", EDir [C72_file C72_post (lit "a.md")]); C72_file "<{{ insert(""b"") }}>" (lit "root.html")].
Example C72_sub (root : string) : list (text * ent) :=
  [C72_file "{{ begin(""b"") }}x{{ end(""b"") }}" (lit "x.html"); C72_file root (lit "root.html")].
Example C72_content (root : string) : ent := EDir (C72_before ++ (lit "sub", EDir (C72_sub root)) :: []).
Example C72_dir (root : string) : source_dir := SourceDir [lit "c"] (lit "c") (Some (C72_content root)).
Example C72_st : stuart := stuart_new config_default [].
Example C72_out (root : string) : node :=
  match st_output (fst (build C72_host [] (lit "production") (C72_dir root) C72_st)) with Some n => n | None => NDir [] [] [] end.
Example C72_builds root : root = "({{ insert(""b"") }})"%string \/ root = "[{{ insert(""b"") }}]"%string ->
  snd (build C72_host [] (lit "production") (C72_dir root) C72_st) = Ok tt /\
  st_output (fst (build C72_host [] (lit "production") (C72_dir root) C72_st)) = Some (C72_out root).
Proof. intros [-> | ->]; split; vm_compute; reflexivity. Qed.
Example C72_edited : edited [lit "sub"] (lit "root.html") (C72_content "({{ insert(""b"") }})") (C72_content "[{{ insert(""b"") }}]").
Proof. apply (ed_below _ [] (lit "root.html") _ _ C72_before []). apply (ed_here _ _ _ [_] []). Qed.
Example C72_distinct : ent_distinct (C72_content "({{ insert(""b"") }})").
Proof. repeat constructor; vm_compute; intuition discriminate. Qed.
Example C72_kind : ~ has_ext (lit "root.html") (lit "md") /\ ~ has_ext (lit "root.html") (lit "json").
Proof. split; intros X; apply TreeFacts.extension_spec in X; discriminate X. Qed.
(** The page of the posts is as before, and the page of [sub] is not. *)
Example C72_old : string := "({{ insert(""b"") }})".
Example C72_new : string := "[{{ insert(""b"") }}]".
Example C72_same nm o : page_from (C72_out C72_old) [] [lit "c"; lit "list.html"] nm o <-> page_from (C72_out C72_new) [] [lit "c"; lit "list.html"] nm o.
Proof.
  destruct (C72_builds C72_old (or_introl eq_refl)) as [B O]. destruct (C72_builds C72_new (or_intror eq_refl)) as [B' O'].
  revert B O B' O'. generalize (C72_out C72_old) as out, (C72_out C72_new) as out'. intros out out' B O B' O'.
  pose proof (C72_edit_partial C72_host [] (lit "production") (C72_dir C72_old) (C72_dir C72_new) C72_st C72_st (C72_content C72_old) (C72_content C72_new) out out' [lit "sub"] (lit "root.html")
    B O eq_refl B' O' eq_refl eq_refl eq_refl eq_refl C72_distinct C72_edited (proj1 C72_kind) (proj2 C72_kind) [] (lit "list.html") (enc (lit C72_list))) as X.
  apply X; [discriminate|discriminate|]. eapply ea_child; [left; reflexivity|constructor].
Qed.
Example C72_listed : page_from (C72_out "({{ insert(""b"") }})") [] [lit "c"; lit "list.html"] (lit "list.html") (enc (lit "<A;>")).
Proof.
  exists PNone. eexists. change ([] ++ [lit "list.html"]) with [n_name (NFile (lit "list.html") (enc (lit "<A;>")) PNone None [lit "c"; lit "list.html"])].
  remember (C72_out "({{ insert(""b"") }})") as out eqn:E. vm_compute in E. subst out. econstructor; [left; reflexivity|constructor].
Qed.
Example C72_sub_page root o : (root = "({{ insert(""b"") }})"%string /\ o = "(x)"%string) \/ (root = "[{{ insert(""b"") }}]"%string /\ o = "[x]"%string) ->
  page_from (C72_out root) [lit "sub"] [lit "c"; lit "sub"; lit "x.html"] (lit "x.html") (enc (lit o)).
Proof.
  intros H. exists PNone, None. set (f := NFile (lit "x.html") (enc (lit o)) PNone None [lit "c"; lit "sub"; lit "x.html"]).
  remember (C72_out root) as out eqn:E.
  assert (X : exists nm l src d, out = NDir nm l src /\ In d l /\ n_name d = lit "sub" /\ exists nm' l' src', d = NDir nm' l' src' /\ In f l').
  { destruct H as [[-> ->]|[-> ->]]; vm_compute in E; subst out; do 4 eexists; (split; [reflexivity|]; split; [do 4 right; left; reflexivity|]; split; [reflexivity|]; do 3 eexists; split; [reflexivity|left; reflexivity]). }
  destruct X as (nm & l & src & dd & -> & I1 & N1 & nm' & l' & src' & -> & I2). change ([lit "sub"] ++ [lit "x.html"]) with [lit "sub"; lit "x.html"].
  rewrite <- N1. econstructor; [exact I1|]. change (lit "x.html") with (n_name f). econstructor; [exact I2|constructor].
Qed.
