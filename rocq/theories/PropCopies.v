(** PropCopies.v -- property C99: where a page is and what it is called does not matter to what is in it. *)

From Coq Require Import String List NArith ZArith Bool.
From Verif Require Import Text Utf8 Json Base Syntax Parse Tree Interp Build Js Shipped.
From Verif Require Import SpecTemplate SpecTree SpecSite SpecLocal SpecNeeds SpecAlike SpecCopies.
From Verif Require Import TreeFacts LocalFacts CopyFacts.
Import ListNotations.

(** ** C99 *)
(** Two files of a site with the same bytes and the same ending, with the same templates around them,
    give the same page, wherever they are and whatever they are called. *)
Theorem C99_copies : forall h osenv mode d st e out,
  snd (build h osenv mode d st) = Ok tt -> st_output (fst (build h osenv mode d st)) = Some out -> sd_ent d = Some e ->
  placeless (st_plugins st) -> ent_distinct e ->
  forall ks name ks' name' b, ent_at e (ks ++ [name]) (EFile b) -> ent_at e (ks' ++ [name']) (EFile b) -> same_kind name name' -> same_templates_at e ks e ks' ->
  forall o, (exists nm, page_from out ks (sd_path d ++ ks ++ [name]) nm o) <-> (exists nm, page_from out ks' (sd_path d ++ ks' ++ [name']) nm o).
Proof. exact copies. Qed.
Print Assumptions C99_copies.
(** So does a file that is moved or renamed, whatever else changes, as long as the files it asks for
    stay as they are. *)
Theorem C99_moved : forall h osenv mode d d' st st' e e' out out',
  snd (build h osenv mode d st) = Ok tt -> st_output (fst (build h osenv mode d st)) = Some out -> sd_ent d = Some e ->
  snd (build h osenv mode d' st') = Ok tt -> st_output (fst (build h osenv mode d' st')) = Some out' -> sd_ent d' = Some e' ->
  sd_path d' = sd_path d -> sd_name d' = sd_name d -> st_plugins st' = st_plugins st -> placeless (st_plugins st) -> ent_distinct e -> ent_distinct e' ->
  forall ks name ks' name' b, ent_at e (ks ++ [name]) (EFile b) -> ent_at e' (ks' ++ [name']) (EFile b) -> same_kind name name' -> same_templates_at e ks e' ks' ->
  (forall s qs, needs h (st_plugins st) e ks name s -> path_of s qs -> same_there e e' qs) ->
  forall nm o, page_from out ks (sd_path d ++ ks ++ [name]) nm o -> exists nm', page_from out' ks' (sd_path d ++ ks' ++ [name']) nm' o.
Proof. exact other_page. Qed.
Print Assumptions C99_moved.
(** Functions written in JavaScript and the two plugins that come with the program do not look at where
    they are used. *)
Theorem C99_plugins : forall o ps, (forall pl, In pl ps -> In pl [imgopt o; demo] \/
    (pl_parsers pl = [] /\ forall f, In f (pl_fns pl) -> exists name code, f = js_plugin_parser name code)) -> placeless ps.
Proof. exact ours_placeless. Qed.
Print Assumptions C99_plugins.

(** A page with a data file, and the same below with another name and a template of its own that is
    the same; below [z] the template is another. *)
Example C99_host : host := Host (fun _ => false) (fun t => lit "<p>" ++ t ++ lit "</p>") None (fun _ => Some (VStr (lit "D"))).
Example C99_text (t : string) (name : string) : text * ent := (lit name, EFile (enc (lit t))).
Example C99_page : string := "{{ begin(""b"") }}{{ import($d, ""d.json"") }}{{ $d }}{{ demo::demo() }}{{ end(""b"") }}".
Example C99_root : string := "<{{ insert(""b"") }}>".
Example C99_content : ent := EDir
  [C99_text C99_page "a.html"; C99_text "7" "d.json"; C99_text C99_root "root.html";
   (lit "x", EDir [(lit "y", EDir [C99_text C99_page "index.html"]); C99_text C99_root "root.html"]);
   (lit "z", EDir [C99_text C99_page "a.html"; C99_text "[{{ insert(""b"") }}]" "root.html"])].
Example C99_dir : source_dir := SourceDir [lit "c"] (lit "c") (Some C99_content).
Example C99_st : stuart := stuart_new config_default [demo].
Example C99_out : node := match st_output (fst (build C99_host [] (lit "production") C99_dir C99_st)) with Some n => n | None => NDir [] [] [] end.
Example C99_text_out : bytes := enc (lit "<D<p>This was written by the demo function!</p>>").
Example C99_built : snd (build C99_host [] (lit "production") C99_dir C99_st) = Ok tt /\ st_output (fst (build C99_host [] (lit "production") C99_dir C99_st)) = Some C99_out.
Proof. split; vm_compute; reflexivity. Qed.
Example C99_distinct : ent_distinct C99_content.
Proof. repeat constructor; vm_compute; intuition discriminate. Qed.
Example C99_placeless : placeless (st_plugins C99_st).
Proof. apply (C99_plugins (fun b => inr b)). intros pl [<-|[]]. left. right. now left. Qed.
Example C99_kind : same_kind (lit "a.html") (lit "index.html").
Proof.
  split; [|split; intros [X|X]; discriminate X]. intros x. split; intros X; apply extension_spec in X; apply extension_spec; vm_compute in X |- *; exact X.
Qed.
Example C99_here : closest C99_content (lit "root.html") [] (enc (lit C99_root)).
Proof. exists [], []. split; [reflexivity|]. split; [eapply ea_child; [right; right; left; reflexivity|constructor]|]. intros [|? ?] c x E NE; [contradiction|discriminate]. Qed.
Example C99_there : closest C99_content (lit "root.html") [lit "x"; lit "y"] (enc (lit C99_root)).
Proof.
  exists [lit "x"], [lit "y"]. split; [reflexivity|]. split.
  - eapply ea_child; [right; right; right; left; reflexivity|]. eapply ea_child; [right; left; reflexivity|constructor].
  - intros a c x E NE A. destruct a as [|k a]; [contradiction|]. injection E as <- E. destruct a as [|? ?]; [|discriminate].
    inversion A as [|? ? ? ? ? I1 A1]; subst. repeat (destruct I1 as [I1|I1]; [try discriminate I1|]); [|destruct I1]. injection I1 as <-.
    inversion A1 as [|? ? ? ? ? I2 A2]; subst. repeat (destruct I2 as [I2|I2]; [try discriminate I2|]); [|destruct I2]. injection I2 as <-.
    inversion A2 as [|? ? ? ? ? I3 A3]; subst. repeat (destruct I3 as [I3|I3]; [try discriminate I3|]); destruct I3.
Qed.
Example C99_files (t : text) : is_template t -> forall ks b, ent_at C99_content (ks ++ [t]) (EFile b) -> t = lit "root.html".
Proof.
  intros It ks b A. pose proof (names_at _ _ _ A ks t eq_refl) as J. destruct It as [-> | ->]; [reflexivity|]. exfalso. vm_compute in J. intuition discriminate.
Qed.
Example C99_templates : same_templates_at C99_content [] C99_content [lit "x"; lit "y"].
Proof.
  intros t b It. split; intros C; assert (t = lit "root.html") as -> by (destruct C as (k1 & k2 & _ & A & _); exact (C99_files t It k1 b A)).
  - rewrite (closest_unique _ _ _ _ _ C99_distinct C99_here C). exact C99_there.
  - rewrite (closest_unique _ _ _ _ _ C99_distinct C99_there C). exact C99_here.
Qed.
Example C99_files_of : list node := match n_children C99_out with Some l => l | None => [] end.
Example C99_case : (exists nm, page_from C99_out [] ([lit "c"] ++ [] ++ [lit "a.html"]) nm C99_text_out) /\
  (exists nm, page_from C99_out [lit "x"; lit "y"] ([lit "c"] ++ [lit "x"; lit "y"] ++ [lit "index.html"]) nm C99_text_out) /\
  exists nm, page_from C99_out [lit "z"] ([lit "c"] ++ [lit "z"] ++ [lit "a.html"]) nm (enc (lit "[D<p>This was written by the demo function!</p>]")).
Proof.
  destruct C99_built as [B O].
  assert (R : C99_out = NDir (n_name C99_out) C99_files_of (n_source C99_out)) by (vm_compute; reflexivity).
  assert (P : exists nm, page_from C99_out [] ([lit "c"] ++ [] ++ [lit "a.html"]) nm C99_text_out).
  { exists (lit "a.html"), PNone, None. rewrite R.
    change ([] ++ [lit "a.html"]) with [n_name (NFile (lit "a.html") C99_text_out PNone None [lit "c"; lit "a.html"])]. econstructor; [vm_compute; left; reflexivity|constructor]. }
  split; [exact P|]. split.
  - apply (C99_copies _ _ _ _ _ _ _ B O eq_refl C99_placeless C99_distinct [] (lit "a.html") [lit "x"; lit "y"] (lit "index.html") (enc (lit C99_page))); [| |exact C99_kind|exact C99_templates|exact P].
    + eapply ea_child; [left; reflexivity|constructor].
    + eapply ea_child; [right; right; right; left; reflexivity|]. eapply ea_child; [left; reflexivity|]. eapply ea_child; [left; reflexivity|constructor].
  - exists (lit "a.html"), PNone, None. rewrite R.
    set (f := NFile (lit "a.html") (enc (lit "[D<p>This was written by the demo function!</p>]")) PNone None ([lit "c"] ++ [lit "z"] ++ [lit "a.html"])).
    set (z := NDir (lit "z") [f; NFile (lit "root.html") (enc (lit "[{{ insert(""b"") }}]")) PNone None [lit "c"; lit "z"; lit "root.html"]] [lit "c"; lit "z"]).
    change ([lit "z"] ++ [lit "a.html"]) with [n_name z; n_name f]. eapply an_child; [vm_compute; tauto|]. econstructor; [left; reflexivity|constructor].
Qed.
