(** SpecRegress.v -- which files can be to blame after one file has been changed (C97). *)

From Coq Require Import String List NArith ZArith Bool.
From Verif Require Import Text Utf8 Json Base Syntax Parse Tree Interp Build SpecTemplate SpecTree SpecSite SpecReads SpecBlame SpecLocal SpecNeeds.
Import ListNotations.

(** The error [x] is that of the page made from the file [name] of the directory [dirs]. *)
Inductive fault_of (h : host) (ps : list plugin) (root : path) (content : ent) (dirs : list text) (name : text) : error -> Prop :=
| fo_page b x : ent_at content (dirs ++ [name]) (EFile b) -> has_ext name (lit "html") \/ has_ext name (lit "md") ->
    page_fault h ps root content dirs name x -> fault_of h ps root content dirs name (E_Process x)
| fo_plugin b ext np c e m : ent_at content (dirs ++ [name]) (EFile b) -> has_ext name ext -> ~ In ext parsed_exts ->
    in_charge ps ext np -> npa_parse np b (root ++ dirs ++ [name]) = inr c -> np_process c e = inl m ->
    fault_of h ps root content dirs name (E_Plugin m).
(** Nothing that the page made from the file [name] of the directory [ks] depends on is the file [qn]
    of the directory [qs]: it is not that file; that file is not a template of its directory or one
    around it; and no path it asks for is that of that file or, if that file is a post, of [qs]. *)
Definition untouched (h : host) (ps : list plugin) (content : ent) (qs : list text) (qn : text) (ks : list text) (name : text) : Prop :=
  ks ++ [name] <> qs ++ [qn] /\ (is_template qn -> forall ks2, ks <> qs ++ ks2) /\
  forall s pl, needs h ps content ks name s -> path_of s pl -> pl <> qs ++ [qn] /\ (has_ext qn (lit "md") -> pl <> qs).
(** A file that can be read and is published as it is. *)
Inductive inert (h : host) (ps : list plugin) (name : text) (b : bytes) : Prop :=
| in_json t v : has_ext name (lit "json") -> utf8_text b t -> h_json h t = Some v -> inert h ps name b
| in_plain : (forall ext, has_ext name ext -> ~ In ext parsed_exts /\ forall np, In np (flat_map pl_parsers ps) -> ~ In ext (npa_exts np)) ->
    inert h ps name b.
