(** SpecBlame.v -- specification: what the error of a build refers to, in terms of the files of the
    content directory (C84). *)

From Coq Require Import String List NArith ZArith Bool.
From Verif Require Import Text Utf8 Json Base Syntax Parse Tree Interp Build SpecChars SpecScope SpecTemplate SpecLocation SpecMarkdown
  SpecGrammar SpecTree SpecSite SpecReads.
Import ListNotations.

Section Blame.
  Variable h : host.
  Variable ps : list plugin.
  Let table : list (text * list plugin_parser) := map (fun p => (pl_name p, pl_fns p)) ps.
  (** The path of the content directory, and what is in it. *)
  Variable root : path.
  Variable content : ent.

  (** The file at [ks], and its text with tags: all of a template, the body of a markdown file. *)
  Definition tagged_text (ks : list text) (body : text) : Prop :=
    exists dirs name b t, ks = dirs ++ [name] /\ ent_at content ks (EFile b) /\ utf8_text b t /\
      ((has_ext name (lit "html") /\ body = t) \/ (has_ext name (lit "md") /\ exists fm, md_parts t fm body)).
  (** The error is one that a tag of this file can cause, and has the place of this tag. *)
  Definition at_tag (ks : list text) (x : traceback process_error) : Prop :=
    exists body toks k before, tagged_text ks body /\ SpecGrammar.means (h_ext h) table body toks /\ In k toks /\
      tag_at (h_ext h) body k before /\ may_raise (tb_kind x) k /\
      x = TB (root ++ ks) (fst (last_position before)) (snd (last_position before)) (tb_kind x).

  (** The directory [dirs] has no template called [name]: every file of that name, in it or in a
      directory around it, is hidden by a directory of that name that is closer. *)
  Definition lacking (name : text) (dirs : list text) : Prop :=
    forall ks1 ks2 b, dirs = ks1 ++ ks2 -> ent_at content (ks1 ++ [name]) (EFile b) ->
      exists a c l, ks2 = a ++ c /\ a <> [] /\ ent_at content (ks1 ++ a ++ [name]) (EDir l).

  (** The errors of the page made from the file [name] in the directory [dirs]. *)
  Inductive page_fault (dirs : list text) (name : text) : traceback process_error -> Prop :=
  | pf_own x : at_tag (dirs ++ [name]) x -> page_fault dirs name x
  | pf_template ks1 ks2 t x : dirs = ks1 ++ ks2 -> t = lit "root.html" \/ (t = lit "md.html" /\ has_ext name (lit "md")) ->
      at_tag (ks1 ++ [t]) x -> page_fault dirs name x
  | pf_stack : page_fault dirs name (TB (root ++ dirs ++ [name]) 0 0 XE_StackError)
  | pf_root : lacking (lit "root.html") dirs -> page_fault dirs name (TB (root ++ dirs ++ [name]) 0 0 XE_MissingHtmlRoot)
  | pf_md : has_ext name (lit "md") -> lacking (lit "md.html") dirs ->
      page_fault dirs name (TB (root ++ dirs ++ [name]) 0 0 XE_MissingMarkdownRoot).

  (** The error [x] is that of a file that was read. *)
  Inductive file_fault : error -> Prop :=
  | ff_page dirs name b x : ent_at content (dirs ++ [name]) (EFile b) -> has_ext name (lit "html") \/ has_ext name (lit "md") ->
      page_fault dirs name x -> file_fault (E_Process x)
  | ff_plugin dirs name b ext np c e m : ent_at content (dirs ++ [name]) (EFile b) -> has_ext name ext -> ~ In ext parsed_exts ->
      in_charge ps ext np -> npa_parse np b (root ++ dirs ++ [name]) = inr c -> np_process c e = inl m -> file_fault (E_Plugin m).
End Blame.
