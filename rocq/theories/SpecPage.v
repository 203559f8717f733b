(** SpecPage.v -- pages and the sections they record. *)

From Coq Require Import String List NArith ZArith Bool.
From Verif Require Import Text Utf8 Json Base Syntax Parse Tree Interp Build SpecScope.
Import ListNotations.

Inductive page := PageHtml (toks : list ltoken) | PageMd (name : text) (m : markdown).

Definition render_page (pr : processor) (e : env) (src : path) (p : page) : xres process_output :=
  match p with
  | PageHtml toks => process_html pr e src toks
  | PageMd name m => process_markdown pr e src name m
  end.

(** The tokens processed for a page before its root template. *)
Definition page_tokens (e : env) (p : page) : list ltoken :=
  match p with
  | PageHtml toks => toks
  | PageMd _ _ => match ev_md e with Some t => t | None => [] end
  end.

(** The sections recorded by a page. *)
Inductive records (pr : processor) (e : env) : page -> list (text * bytes) -> Prop :=
| rec_html toks b s : pr_base pr = Some b -> phase pr toks [b] [] = Ok s -> records pr e (PageHtml toks) (sc_secs s)
| rec_md name m b t v s : pr_base pr = Some b -> ev_md e = Some t -> md_to_value (E := unit) m = Ok v ->
    phase pr t [Frame (fr_name b) (fr_vars b ++ [(lit "self", v)]) (fr_out b)] [] = Ok s ->
    records pr e (PageMd name m) (sc_secs s).

(** [out] is what the root template prints when it starts with the sections [secs] and no
    variables but those of the base scope [b]. *)
Definition root_prints (pr : processor) (root : list ltoken) (b : frame) (secs : list (text * bytes)) (out : bytes) : Prop :=
  exists s f r, phase pr root [b] secs = Ok s /\ sc_stack s = f :: r /\ out = fr_out f.

(** The page can be processed: its markdown has been rendered and its name ends in [.md]. *)
Definition page_ready (p : page) : Prop :=
  match p with PageHtml _ => True | PageMd name m => md_html m <> None /\ exists stem, name = stem ++ lit ".md" end.
Definition root_tokens (e : env) : list ltoken := match ev_root e with Some t => t | None => [] end.
(** The errors about the page as a whole: a missing template or an open block. *)
Definition page_error (e : env) (p : page) (k : process_error) : Prop :=
  match k with
  | XE_StackError => True
  | XE_MissingHtmlRoot => ev_root e = None
  | XE_MissingMarkdownRoot => ev_md e = None /\ exists n m, p = PageMd n m
  | _ => False
  end.

(** A site whose only page prints the mode of the build. *)
Definition C18_site : source_dir := SourceDir [] [] (Some (EDir
  [(lit "root.html", EFile (enc (lit "{{ $env.STUART_ENV }}"))); (lit "a.html", EFile [])])).
