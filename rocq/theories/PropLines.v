(** PropLines.v -- property C100: the way lines end in the sources changes the way lines end in the site
    only. *)

From Coq Require Import String List NArith ZArith Bool.
From Verif Require Import Text Utf8 Json Base Syntax Parse Tree Interp Build Js Shipped.
From Verif Require Import SpecTemplate SpecGrammar SpecUtf8 SpecTree SpecReads SpecLines.
From Verif Require Import Utf8Facts TreeFacts LineFacts LineRun.
Import ListNotations.

(** ** C100 *)
(** Of two sites that differ in the way lines end, both or neither can be built. *)
Theorem C100_builds : forall h osenv mode p name e e' st, line_blind (st_plugins st) -> sources_lines h (st_plugins st) name e e' ->
  (snd (build h osenv mode (SourceDir p name (Some e)) st) = Ok tt <-> snd (build h osenv mode (SourceDir p name (Some e')) st) = Ok tt).
Proof. exact builds_iff. Qed.
Print Assumptions C100_builds.
(** What comes out differs in the way lines end only. *)
Theorem C100_site : forall h osenv mode p name e e' st out, line_blind (st_plugins st) -> sources_lines h (st_plugins st) name e e' ->
  snd (build h osenv mode (SourceDir p name (Some e)) st) = Ok tt -> st_output (fst (build h osenv mode (SourceDir p name (Some e)) st)) = Some out ->
  snd (build h osenv mode (SourceDir p name (Some e')) st) = Ok tt /\
  exists out', st_output (fst (build h osenv mode (SourceDir p name (Some e')) st)) = Some out' /\ output_lines out out'.
Proof. exact build_goes. Qed.
Print Assumptions C100_site.
(** If only markdown files differ, the result is the very same, also if it is an error. *)
Theorem C100_posts : forall h osenv mode p name e e' st, posts_lines name e e' ->
  snd (build h osenv mode (SourceDir p name (Some e')) st) = snd (build h osenv mode (SourceDir p name (Some e)) st) /\
  st_output (fst (build h osenv mode (SourceDir p name (Some e')) st)) = st_output (fst (build h osenv mode (SourceDir p name (Some e)) st)).
Proof. exact posts_build. Qed.
Print Assumptions C100_posts.
(** Functions written in JavaScript and the two plugins that come with the program do not look at line
    ends. *)
Theorem C100_plugins : forall o ps, (forall pl, In pl ps -> In pl [imgopt o; demo] \/
    (pl_parsers pl = [] /\ forall f, In f (pl_fns pl) -> exists name code, f = js_plugin_parser name code)) -> line_blind ps.
Proof. exact ours_blind. Qed.
Print Assumptions C100_plugins.

(** A site of four files, written with line feeds and with carriage returns as well; tags go over the end
    of lines. *)
Example C100_host : host := Host (fun _ => false) (fun t => lit "<p>" ++ t ++ lit "</p>") None (fun _ => Some VNull).
Example C100_lines (e : text) (l : list string) : text := flat_map (fun s => lit s ++ e) l.
Example C100_file (e : text) (name : string) (l : list string) : text * ent := (lit name, EFile (enc (C100_lines e l))).
Example C100_post : list string := ["---"; "title: ""T"""; "---"; ""; "x"; "y"]%string.
Example C100_page (e : text) : list (text * ent) :=
  [C100_file e "a.html" ["{{ begin(""b"") }}one{{ demo::demo() }}{{ end(""b"") }}"; "two"]%string;
   C100_file e "md.html" ["{{ begin(""b"") }}{{ $self.content }}{{ end(""b"") }}{{ ifdefined("; " $self.title"; ") }}{{ end("; "ifdefined) }}"]%string;
   C100_file e "p.md" C100_post;
   C100_file e "root.html" ["<{{ insert(""b"") }}>"; "<"; ">"]%string;
   C100_file e "s.css" ["a {"; "}"]%string].
Example C100_unix : ent := EDir (C100_page [c_lf]).
Example C100_dos : ent := EDir (C100_page [c_cr; c_lf]).
Example C100_st : stuart := stuart_new config_default [demo].
Example C100_split (n : nat) (t : text) : ~ In c_lf (firstn n t) -> ~ In c_quote (skipn n t) -> forall ext, one_line ext t.
Proof. intros A B ext. rewrite <- (firstn_skipn n t). now apply quotes_first. Qed.
Example C100_same (l : list string) : forallb (fun s => forallb (fun c => negb (c =? c_cr) && negb (c =? c_lf))%N (lit s)) l = true -> same_lines (C100_lines [c_lf] l) (C100_lines [c_cr; c_lf] l).
Proof.
  induction l as [|s l IH]; intros H; [constructor|]. cbn [forallb] in H. apply andb_prop in H as [H1 H2]. unfold C100_lines. cbn [flat_map]. rewrite <- !app_assoc. apply sb_app.
  - clear IH H2. induction (lit s) as [|c t IHt]; [constructor|]. cbn [forallb] in H1. apply andb_prop in H1 as [A B]. apply andb_prop in A as [A1 A2]. constructor; [|now apply IHt].
    split; intros ->; discriminate.
  - constructor; [now left|now right|now apply IH].
Qed.
Example C100_one (name : string) (l : list string) :
  forallb (fun s => forallb (fun c => negb (c =? c_cr) && negb (c =? c_lf))%N (lit s)) l = true ->
  from_utf8 (enc (C100_lines [c_lf] l)) = Some (C100_lines [c_lf] l) -> from_utf8 (enc (C100_lines [c_cr; c_lf] l)) = Some (C100_lines [c_cr; c_lf] l) ->
  (extension (lit name) = Some (lit "html") -> forall ext, one_line ext (C100_lines [c_lf] l)) -> extension (lit name) <> Some (lit "json") ->
  file_lines C100_host [demo] (lit name) (enc (C100_lines [c_lf] l)) (enc (C100_lines [c_cr; c_lf] l)).
Proof.
  intros P U U' O J. apply (fl_text _ _ _ _ _ (C100_lines [c_lf] l) (C100_lines [c_cr; c_lf] l)).
  - now apply decoding.
  - now apply decoding.
  - now apply C100_same.
  - intros X. apply O. now apply extension_spec.
  - intros X. destruct J. now apply extension_spec.
  - intros x np _ _ (a & b & E & _). destruct a; discriminate E.
Qed.
Example C100_related : sources_lines C100_host [demo] (lit "c") C100_unix C100_dos.
Proof.
  constructor. repeat (apply Forall2_cons; [split; [reflexivity|]; apply sl_file; apply C100_one; [reflexivity|vm_compute; reflexivity|vm_compute; reflexivity| |vm_compute; discriminate]|]); try apply Forall2_nil;
    try (intros X; vm_compute in X; discriminate X); intros _.
  - apply (C100_split 51); vm_compute; intuition discriminate.
  - apply (C100_split 60); vm_compute; intuition discriminate.
  - apply (C100_split 18); vm_compute; intuition discriminate.
Qed.
Example C100_blind : line_blind (st_plugins C100_st).
Proof. apply (C100_plugins (fun b => inr b)). intros pl [<-|[]]. left. right. now left. Qed.
Example C100_unix_out : snd (build C100_host [] (lit "production") (SourceDir [lit "c"] (lit "c") (Some C100_unix)) C100_st) = Ok tt.
Proof. vm_compute. reflexivity. Qed.
Example C100_pages (e : ent) : list (text * bytes) :=
  match st_output (fst (build C100_host [] (lit "production") (SourceDir [lit "c"] (lit "c") (Some e)) C100_st)) with
  | Some (NDir _ ch _) => map (fun n => match n with NFile n b _ _ _ => (n, b) | NDir n _ _ => (n, []) end) ch
  | _ => []
  end.
Example C100_unix_page : assoc (lit "p.html") (C100_pages C100_unix) = Some (enc (lit "<<p>" ++ [c_lf] ++ lit "x" ++ [c_lf] ++ lit "y</p>>" ++ [c_lf] ++ lit "<" ++ [c_lf] ++ lit ">" ++ [c_lf])).
Proof. vm_compute. reflexivity. Qed.
(** What comes from the template has its line ends, the post has line feeds all the same. *)
Example C100_dos_page : assoc (lit "p.html") (C100_pages C100_dos) = Some (enc (lit "<<p>" ++ [c_lf] ++ lit "x" ++ [c_lf] ++ lit "y</p>>" ++ [c_cr; c_lf] ++ lit "<" ++ [c_cr; c_lf] ++ lit ">" ++ [c_cr; c_lf])).
Proof. vm_compute. reflexivity. Qed.
Example C100_mixed : ent := EDir (firstn 2 (C100_page [c_lf]) ++ firstn 1 (skipn 2 (C100_page [c_cr; c_lf])) ++ skipn 3 (C100_page [c_lf])).
Example C100_mixed_posts : posts_lines (lit "c") C100_unix C100_mixed /\ C100_mixed <> C100_unix.
Proof.
  split; [|intros X; vm_compute in X; discriminate X]. constructor. repeat (apply Forall2_cons; [split; [reflexivity|]; apply pol_file|]); try apply Forall2_nil; try (left; reflexivity).
  right. split; [apply extension_spec; reflexivity|]. exists (C100_lines [c_lf] C100_post), (C100_lines [c_cr; c_lf] C100_post).
  split; [|split; [|apply C100_same; reflexivity]]; apply decoding; vm_compute; reflexivity.
Qed.
(** Text arguments that go over the end of a line are another text if lines end otherwise. *)
Example C100_long (e : text) : ent := EDir [(lit "a.html", EFile (enc (lit "{{ begin(""b"") }}{{ ifeq($env.X, ""1" ++ e ++ lit "2"") }}yes{{ end(ifeq) }}{{ end(""b"") }}")));
  C100_file [] "root.html" ["{{ insert(""b"") }}"]%string].
Example C100_long_pages : exists osenv, forall e, e = [c_lf] \/ e = [c_cr; c_lf] ->
  st_output (fst (build C100_host osenv (lit "production") (SourceDir [lit "c"] (lit "c") (Some (C100_long e))) C100_st)) =
  Some (NDir (lit "c") [NFile (lit "a.html") (if text_eqb e [c_lf] then lit "yes" else []) PNone None [lit "c"; lit "a.html"];
    NFile (lit "root.html") (lit "{{ insert(""b"") }}") PNone None [lit "c"; lit "root.html"]] [lit "c"]).
Proof. exists [(lit "X", lit "1" ++ [c_lf] ++ lit "2")]. intros e [->| ->]; vm_compute; reflexivity. Qed.
