(** PropServe.v -- property C82: what the development server answers. *)

From Coq Require Import String List NArith ZArith Bool.
From Verif Require Import Text Utf8 Json Base Syntax Tree Build Disk Cli Dev Serve SpecTree SpecDisk SpecProject SpecDev SpecServe.
From Verif Require Import ServeFacts.
Import ListNotations.

(** After a successful save the whole site is served: every file at its address, every directory with an
    [index.html] at its own, with a redirection from the address without the slash; at other addresses
    there is nothing. *)
Theorem C82_site : forall find mime js f st dir d d' out ch l, finds find ->
  st_output st = Some out -> n_children out = Some ch -> saves_all (st_config st) [] ch l ->
  ent_distinct d -> save f st dir d = (d', Ok tt) -> forall ks, Forall url_name ks ->
  (forall b, last_file l ks b -> ks <> [] ->
     serves mime js (last ks []) b (serve_dir find mime js dir ([c_slash] ++ address ks) d')) /\
  (forall b, last_file l (ks ++ [lit "index.html"]) b ->
     serves mime js (lit "index.html") b (serve_dir find mime js dir ([c_slash] ++ dir_address ks) d')) /\
  (In (ks, None) l -> (forall b, ~ In (ks, Some b) l) -> ks <> [] ->
     serve_dir find mime js dir ([c_slash] ++ address ks) d' = Response 301 [(lit "Location", [c_slash] ++ dir_address ks)] []) /\
  (~ In ks (map fst l) -> ks <> [] -> serve_dir find mime js dir ([c_slash] ++ address ks) d' = Response 404 [] (lit "Not Found")).
Proof. exact serve_saved. Qed.
Print Assumptions C82_site.
(** Directories without an [index.html], and addresses of directories that do not exist. *)
Theorem C82_missing : forall find mime js, finds find -> forall dir ks d, Forall url_name ks ->
  (ks <> [] -> what (dir ++ ks) d = KNone -> serve_dir find mime js dir ([c_slash] ++ address ks) d = Response 404 [] (lit "Not Found")) /\
  (what (dir ++ ks ++ [lit "index.html"]) d = KNone -> serve_dir find mime js dir ([c_slash] ++ dir_address ks) d = Response 404 [] (lit "Not Found")).
Proof. exact serve_missing. Qed.
Print Assumptions C82_missing.
(** Whatever is asked for, only files of the output directory are shown. *)
Theorem C82_inside : forall find mime js, finds find -> forall dir uri d hs body,
  serve_dir find mime js dir uri d = Response 200 hs body -> exists q b, above dir q /\ what q d = KFile b /\ serves mime js (last q []) b (Response 200 hs body).
Proof. exact serve_inside. Qed.
Print Assumptions C82_inside.
Example C82_finder : finds simple_finder.
Proof. exact finds_simple. Qed.
Example C82_disk : ent :=
  EDir [(lit "secret", EFile []);
        (lit "dist", EDir [(lit "index.html", EFile (lit "<body>home</body>"));
                           (lit "about", EDir [(lit "index.html", EFile (lit "<p>us</p>"))]);
                           (lit "img", EDir [(lit "a.png", EFile [1%N]); (lit "LICENSE", EFile [2%N])])])].
Example C82_case :
  let get u := serve_dir simple_finder (fun e => lit "type/" ++ e) (lit "JS") [lit "dist"] (lit u) C82_disk in
  get "/"%string = Response 200 [(lit "Content-Type", lit "type/html")] (lit "<body>home<script>JS</script></body>") /\
  get "/about"%string = Response 301 [(lit "Location", lit "/about/")] [] /\
  get "/about/"%string = Response 200 [(lit "Content-Type", lit "type/html")] (lit "<p>us</p>") /\
  get "/img/a.png"%string = Response 200 [(lit "Content-Type", lit "type/png")] [1%N] /\
  get "/img/LICENSE"%string = Response 200 [] [2%N] /\
  get "/img/"%string = Response 404 [] (lit "Not Found") /\
  get "/b"%string = Response 404 [] (lit "Not Found").
Proof. vm_compute. repeat split. Qed.
Example C82_names : Forall url_name [lit "img"; lit "a.png"].
Proof.
  repeat constructor; try discriminate; try (intros X; repeat (destruct X as [X|X]; [discriminate X|]); exact X);
    try (intros c I X; repeat (destruct I as [<-|I]; [repeat (destruct X as [X|X]; [discriminate X|]); exact X|]); exact I);
    intros a b; cbn; repeat (destruct a as [|? a]; [discriminate|]; intros X; injection X as _ X; revert X); destruct a; discriminate.
Qed.
