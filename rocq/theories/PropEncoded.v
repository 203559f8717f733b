(** PropEncoded.v -- every page of a built site is UTF-8 (C32). *)

From Coq Require Import String List NArith ZArith Bool Lia.
From Verif Require Import Text Utf8 Json Base Syntax Parse Tree Interp Build SpecScope SpecTree SpecUtf8 SpecEncoded EncodedFacts.
Import ListNotations.

Theorem C32_build : forall h osenv mode d st out, scalar_host h -> scalar_plugins (st_plugins st) ->
  (forall np, In np (flat_map pl_parsers (st_plugins st)) -> html_parser np) ->
  Forall (fun kv => scalars (snd kv)) osenv -> scalars mode ->
  snd (build h osenv mode d st) = Ok tt -> st_output (fst (build h osenv mode d st)) = Some out ->
  forall name b p meta src, inside (NFile name b p meta src) out -> has_ext name (lit "html") -> utf8 b.
Proof. exact build_encoded. Qed.
Print Assumptions C32_build.

(** A page with accents, an excerpt that ends between them, and a picture, which need not be text. *)
Example host2 : host := Host (fun _ => false) (fun t => t) None (fun _ => None).
Example pages : list (text * ent) :=
  [(lit "md.html", EFile (enc (lit "{{ begin(""main"") }}{{ excerpt($self.content, 4) }}{{ end(""main"") }}")));
   (lit "root.html", EFile (enc ([233; 8364]%N ++ lit "{{ $env.WHO }}{{ insert(""main"") }}")));
   (lit "cat.png", EFile [137; 80; 78; 71; 255]%N);
   (lit "p.md", EFile (enc [233; 128512; 233; 128512; 233; 128512]%N))].
Example built : stuart * res error unit :=
  build host2 [(lit "WHO", [255]%N)] (lit "production") (SourceDir [lit "c"] (lit "c") (Some (EDir pages))) (stuart_new config_default []).
Example C32_build_case : scalar_host host2 /\ snd built = Ok tt /\
  option_map (fun n => option_map (map (fun f => match f with NFile name b _ _ _ => (name, from_utf8 b) | _ => ([], None) end)) (n_children n)) (st_output (fst built)) =
  Some (Some [(lit "md.html", Some (lit "{{ begin(""main"") }}{{ excerpt($self.content, 4) }}{{ end(""main"") }}"));
        (lit "root.html", Some ([233; 8364]%N ++ lit "{{ $env.WHO }}{{ insert(""main"") }}")); (lit "cat.png", None);
        (lit "p.html", Some ([233; 8364; 255; 233; 128512]%N ++ lit "..."))]).
Proof.
  split; [|split; vm_compute; reflexivity]. split; [intros t S; exact S|]. split; [discriminate|]. discriminate.
Qed.
