(** PropMeta.v -- property C93: what metadata.json says about the files of a project. *)

From Coq Require Import String List NArith Bool.
From Verif Require Import Text Utf8 Json Base Syntax Parse Tree Interp Build Disk Cli.
From Verif Require Import SpecTree SpecMarkdown SpecUtf8 SpecDisk SpecProject SpecSite SpecMeta.
From Verif Require Import Utf8Facts MetaFacts.
Import ListNotations.

(** ** C93 *)
(** Whatever fails or is run: if the build is successful then, when the post-build scripts start, metadata.json lists the files and the directories
    of the content, the static and the temporary directory as the pre-build scripts left them, and nothing else. *)
Theorem C93_metadata : forall m f c d c' d', cli_build m f c d = (c', d', COk) -> cf_meta (st_config (cx_stuart c)) = true ->
  flat_map pl_parsers (st_plugins (cx_stuart c)) = [] ->
  exists d1 d4 content others vs, ran (m_script m) (cx_pre c) d d1 /\ ran (m_script m) (cx_post c) d4 d' /\
    lookup (cx_dir c ++ [lit "content"]) d1 = Some content /\
    (forall e, In e others <-> lookup (cx_dir c ++ [lit "static"]) d1 = Some e \/ lookup (cx_dir c ++ [lit "temp"]) d1 = Some e) /\
    tells (m_host m) content others vs /\
    what (cx_dir c ++ [lit "metadata.json"]) d4 = KFile (m_ser m (VObj
      [(lit "name", VStr (cf_name (st_config (cx_stuart c))));
       (lit "author", match cf_author (st_config (cx_stuart c)) with Some a => VStr a | None => VNull end); (lit "data", VArr vs)])).
Proof. exact metadata_tells. Qed.
Print Assumptions C93_metadata.

Example C93_post : string := String.append "---" (String (Ascii.ascii_of_nat 10) (String.append "t: ""A""" (String (Ascii.ascii_of_nat 10) "---"))).
Example C93_content : ent := EDir [(lit "root.html", EFile (enc (lit "r"))); (lit "md.html", EFile (enc (lit "m")));
  (lit "posts", EDir [(lit "a.md", EFile (enc (lit C93_post)))])].
Example C93_project : context := Context (stuart_new (Config (lit "n") (Some (lit "me")) true false true) []) [] [] (lit "production") [lit "p"] (lit "dist").
(** A serialisation that is enough to see the entries. *)
Example C93_names (v : value) : bytes :=
  match v with VObj [_; _; (_, VArr vs)] => flat_map (fun v => match v with VObj ((_, VStr k) :: (_, VStr k') :: _) => enc (k ++ lit "/" ++ k' ++ lit " ") | _ => [] end) vs | _ => [] end.
Example C93_machine : machine := Machine (Host (fun _ => false) (fun t => t) None (fun _ => None)) C93_names [] (fun _ d => (d, ScriptOk)).
Example C93_disk : ent := EDir [(lit "p", EDir [(lit "stuart.toml", EFile []); (lit "content", C93_content); (lit "static", EDir [(lit "s.css", EFile [])])])].
Example C93_case : exists c' d', cli_build C93_machine no_faults C93_project C93_disk = (c', d', COk) /\
  cf_meta (st_config (cx_stuart C93_project)) = true /\ flat_map pl_parsers (st_plugins (cx_stuart C93_project)) = [] /\
  what [lit "p"; lit "metadata.json"] d' = KFile (enc (lit "root.html/file md.html/file directory/posts s.css/file ")).
Proof. do 2 eexists. split; [vm_compute; reflexivity|]. repeat split; vm_compute; reflexivity. Qed.
(** The entry of the post. *)
Example C93_entry : file_says (Host (fun _ => false) (fun t => t) None (fun _ => None)) (lit "a.md") (enc (lit C93_post)) (lit "a.html")
  (VObj [(lit "name", VStr (lit "a.html")); (lit "type", VStr (lit "markdown")); (lit "value", VObj [(lit "t", VStr (lit "A"))])]).
Proof.
  assert (MP : exists body, md_parts (lit C93_post) [(lit "t", lit "A")] body).
  { apply (OrderFacts.parsed_parts (fun _ => false) [] [] (lit C93_post) (Markdown [(lit "t", lit "A")] [] [] None)). vm_compute. reflexivity. }
  destruct MP as [body MP]. refine (fs_md _ (lit "a") _ (lit C93_post) [(lit "t", lit "A")] body _ _ MP); [discriminate|apply decoding; reflexivity].
Qed.
