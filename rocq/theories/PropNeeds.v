(** PropNeeds.v -- property C88: a page depends only on the files it asks for. *)

From Coq Require Import String List NArith ZArith Bool.
From Verif Require Import Text Utf8 Json Base Syntax Parse Tree Interp Build.
From Verif Require Import SpecTemplate SpecTree SpecSite SpecLocal SpecNeeds.
From Verif Require Import Utf8Facts NeedsFacts.
Import ListNotations.

(** ** C88 *)
(** Two builds, and a file that is in both with the same templates in its directory and around it: it
    gives the same page if the two have the same files, and the same markdown files of directories, at
    every path that the page asks for. *)
Theorem C88_page_partial : forall h osenv mode d d' st st' e e' out out',
  snd (build h osenv mode d st) = Ok tt -> st_output (fst (build h osenv mode d st)) = Some out -> sd_ent d = Some e ->
  snd (build h osenv mode d' st') = Ok tt -> st_output (fst (build h osenv mode d' st')) = Some out' -> sd_ent d' = Some e' ->
  sd_path d' = sd_path d -> sd_name d' = sd_name d -> st_plugins st' = st_plugins st -> ent_distinct e -> ent_distinct e' ->
  forall ks name b, ent_at e (ks ++ [name]) (EFile b) -> ent_at e' (ks ++ [name]) (EFile b) -> same_around e e' ks ->
  (forall s qs, needs h (st_plugins st) e ks name s -> path_of s qs -> same_there e e' qs) ->
  forall nm o, page_from out ks (sd_path d ++ ks ++ [name]) nm o <-> page_from out' ks (sd_path d ++ ks ++ [name]) nm o.
Proof. exact page_needs. Qed.
Print Assumptions C88_page_partial.
(** So adding, removing or editing one file of any kind leaves the page of every other file as it was,
    unless the page asks for that file, or that file is one of the markdown files of a directory that
    the page asks for, or a template around it. *)
Theorem C88_file_partial : forall h osenv mode d d' st st' e e' out out' qs qn,
  snd (build h osenv mode d st) = Ok tt -> st_output (fst (build h osenv mode d st)) = Some out -> sd_ent d = Some e ->
  snd (build h osenv mode d' st') = Ok tt -> st_output (fst (build h osenv mode d' st')) = Some out' -> sd_ent d' = Some e' ->
  sd_path d' = sd_path d -> sd_name d' = sd_name d -> st_plugins st' = st_plugins st -> ent_distinct e -> changed qs qn e e' ->
  forall ks name b, ks ++ [name] <> qs ++ [qn] -> (is_template qn -> forall ks2, ks <> qs ++ ks2) -> ent_at e (ks ++ [name]) (EFile b) ->
  (forall s pl, needs h (st_plugins st) e ks name s -> path_of s pl -> pl <> qs ++ [qn] /\ (has_ext qn (lit "md") -> pl <> qs)) ->
  forall nm o, page_from out ks (sd_path d ++ ks ++ [name]) nm o <-> page_from out' ks (sd_path d ++ ks ++ [name]) nm o.
Proof. exact changed_page. Qed.
Print Assumptions C88_file_partial.

(** A site with a page that imports a data file and a page that lists the posts; a post is added. *)
Example C88_host : host := Host (fun _ => false) (fun t => lit "<p>" ++ t ++ lit "</p>") None (fun _ => Some (VStr (lit "D"))).
Example C88_text (t : string) (name : string) : text * ent := (lit name, EFile (enc (lit t))).
Example C88_nl : string := String (Ascii.ascii_of_nat 10) EmptyString.
Example C88_post (t : string) : string := ("---" ++ C88_nl ++ "t: """ ++ t ++ """" ++ C88_nl ++ "---" ++ C88_nl ++ "hi")%string.
Example C88_about : string := "{{ begin(""b"") }}{{ import($d, ""data.json"") }}{{ $d }}{{ end(""b"") }}".
Example C88_list : string := "{{ begin(""b"") }}{{ for($p, ""posts/"") }}{{ $p.t }};{{ end(for) }}{{ end(""b"") }}".
Example C88_md : string := "{{ begin(""b"") }}{{ $self.content }}{{ end(""b"") }}".
Example C88_root : string := "<{{ insert(""b"") }}>".
Example C88_front : list (text * ent) :=
  [C88_text C88_about "about.html"; C88_text "0" "data.json"; C88_text C88_list "list.html"; C88_text C88_md "md.html"].
Example C88_posts (o : option bytes) : ent := EDir ([C88_text (C88_post "A") "a.md"] ++ maybe_file (lit "b.md") o ++ []).
Example C88_content (o : option bytes) : ent := EDir (C88_front ++ (lit "posts", C88_posts o) :: [C88_text C88_root "root.html"]).
Example C88_dir (o : option bytes) : source_dir := SourceDir [lit "c"] (lit "c") (Some (C88_content o)).
Example C88_st : stuart := stuart_new config_default [].
Example C88_out (o : option bytes) : node :=
  match st_output (fst (build C88_host [] (lit "production") (C88_dir o) C88_st)) with Some n => n | None => NDir [] [] [] end.
Example C88_new : option bytes := Some (enc (lit (C88_post "B"))).
Example C88_builds o : o = None \/ o = C88_new ->
  snd (build C88_host [] (lit "production") (C88_dir o) C88_st) = Ok tt /\
  st_output (fst (build C88_host [] (lit "production") (C88_dir o) C88_st)) = Some (C88_out o).
Proof. intros [-> | ->]; split; vm_compute; reflexivity. Qed.
Example C88_changed : changed [lit "posts"] (lit "b.md") (C88_content None) (C88_content C88_new).
Proof. apply (cg_below _ [] (lit "b.md") _ _ C88_front). apply (cg_here _ None C88_new [_] []). vm_compute. intuition discriminate. Qed.
Example C88_distinct : ent_distinct (C88_content None).
Proof. repeat constructor; vm_compute; intuition discriminate. Qed.
(** All that the first page asks for is the data file. *)
Example C88_html name : In name ["about.html"; "root.html"; "md.html"]%string -> has_ext (lit name) (lit "html").
Proof. intros H. apply TreeFacts.extension_spec. destruct H as [<-|[<-|[<-|[]]]]; reflexivity. Qed.
Example C88_own s : asks_for C88_host [] (C88_content None) ([] ++ [lit "about.html"]) s -> s = lit "data.json".
Proof.
  intros Q. eapply file_asks_only in Q as (k & I & K); [|exact C88_distinct|econstructor; [left; reflexivity|constructor]|vm_compute; reflexivity|apply C88_html; now left|vm_compute; reflexivity].
  cbn in I. destruct I as [<-|[<-|[<-|[<-|[]]]]]; inversion K; subst; reflexivity.
Qed.
Example C88_around t s : is_template t -> ~ asks_for C88_host [] (C88_content None) ([] ++ [t]) s.
Proof.
  intros [-> | ->] Q.
  - eapply file_asks_only in Q as (k & I & K); [|exact C88_distinct|econstructor; [do 5 right; left; reflexivity|constructor]|vm_compute; reflexivity|apply C88_html; right; now left|vm_compute; reflexivity].
    cbn in I. destruct I as [<-|[<-|[<-|[]]]]; inversion K.
  - eapply file_asks_only in Q as (k & I & K); [|exact C88_distinct|econstructor; [do 3 right; left; reflexivity|constructor]|vm_compute; reflexivity|apply C88_html; do 2 right; now left|vm_compute; reflexivity].
    cbn in I. destruct I as [<-|[<-|[<-|[]]]]; inversion K.
Qed.
Example C88_needs s : needs C88_host [] (C88_content None) [] (lit "about.html") s <-> s = lit "data.json".
Proof.
  split.
  - induction 1 as [s Q|ks1 ks2 t s Ek It Q|s0 qs q s Ns IH Pq X Q].
    + now apply C88_own.
    + destruct ks1; [|discriminate Ek]. now apply C88_around in Q.
    + subst s0. apply path_components in Pq. injection Pq as <-. apply no_file_asks in Q; [easy|]. intros b A.
      inversion A as [|? ? x ? ? I A1]; subst. cbn in I.
      repeat (destruct I as [I|I]; [try discriminate I; injection I as <-; inversion A1|]). destruct I.
  - intros ->. apply ne_own. exists (lit C88_about). eexists. exists (TFun (FImport (lit "d") (lit "data.json"))). split; [|split; [|split]].
    + exists [], (lit "about.html"), (enc (lit C88_about)), (lit C88_about). split; [reflexivity|]. split; [econstructor; [left; reflexivity|constructor]|].
      split; [apply decoding; vm_compute; reflexivity|]. left. split; [apply C88_html; now left|reflexivity].
    + apply (GrammarFacts.parse_means _ _ []). eexists. split; vm_compute; reflexivity.
    + right. left. reflexivity.
    + constructor.
Qed.
(** Its page is the same with the new post, and the list of posts is not. *)
Example C88_kept nm o : page_from (C88_out None) [] [lit "c"; lit "about.html"] nm o <-> page_from (C88_out C88_new) [] [lit "c"; lit "about.html"] nm o.
Proof.
  destruct (C88_builds None (or_introl eq_refl)) as [B O]. destruct (C88_builds C88_new (or_intror eq_refl)) as [B' O'].
  revert B O B' O'. generalize (C88_out None) as out, (C88_out C88_new) as out'. intros out out' B O B' O'.
  pose proof (C88_file_partial C88_host [] (lit "production") (C88_dir None) (C88_dir C88_new) C88_st C88_st (C88_content None) (C88_content C88_new) out out' [lit "posts"] (lit "b.md")
    B O eq_refl B' O' eq_refl eq_refl eq_refl eq_refl C88_distinct C88_changed [] (lit "about.html") (enc (lit C88_about))) as X.
  apply X; [discriminate| | |].
  - intros [Y|Y]; discriminate Y.
  - eapply ea_child; [left; reflexivity|constructor].
  - intros s pl Ns Pq. apply C88_needs in Ns. subst s. apply path_components in Pq. injection Pq as <-. split; [discriminate|]. intros _. discriminate.
Qed.
Example C88_page_at o name t nm l src p m : C88_out o = NDir nm l src -> In (NFile (lit name) (enc (lit t)) p m [lit "c"; lit name]) l ->
  page_from (C88_out o) [] [lit "c"; lit name] (lit name) (enc (lit t)).
Proof.
  intros -> I. exists p, m. change ([] ++ [lit name]) with [n_name (NFile (lit name) (enc (lit t)) p m [lit "c"; lit name])]. econstructor; [exact I|constructor].
Qed.
Example C88_shown : page_from (C88_out None) [] [lit "c"; lit "about.html"] (lit "about.html") (enc (lit "<D>")).
Proof. eapply C88_page_at; [vm_compute; reflexivity|left; reflexivity]. Qed.
Example C88_listed : page_from (C88_out None) [] [lit "c"; lit "list.html"] (lit "list.html") (enc (lit "<A;>")) /\
  page_from (C88_out C88_new) [] [lit "c"; lit "list.html"] (lit "list.html") (enc (lit "<A;B;>")).
Proof. split; (eapply C88_page_at; [vm_compute; reflexivity|do 2 right; left; reflexivity]). Qed.
