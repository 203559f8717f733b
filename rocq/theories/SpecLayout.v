(** SpecLayout.v -- templates that differ in the way their tags are written only (C103). *)

From Coq Require Import String List NArith ZArith Bool Permutation.
From Verif Require Import Text Utf8 Json Base Syntax Parse Tree Interp Build SpecTemplate SpecGrammar SpecUtf8 SpecTree SpecSite SpecDisk SpecAlike.
Import ListNotations.

(** The same tag, the options of a loop in any order.  Of several values for [order] the last one counts,
    so there may be only one of them. *)
Inductive same_tag : tag -> tag -> Prop :=
| st_same g : same_tag g g
| st_for pos named named' : Permutation named named' -> (opt_count (lit "order") named <= 1)%nat ->
    same_tag (GCall (lit "for") pos named) (GCall (lit "for") pos named').
(** Texts made of the same raw texts and tags: only the way they are written is different, which is white
    space in tags, commas with nothing between them, signs and zeros in front of numbers, and the order of
    options. *)
Definition same_template (ext : char -> bool) (t t' : text) : Prop :=
  exists l l' r, loose_template ext l r t /\ loose_template ext l' r t' /\
    Forall2 (fun a a' => fst a' = fst a /\ same_tag (snd a) (snd a')) l l'.
(** A source file, and the same file written in another way: pages and templates. *)
Inductive file_layout (h : host) (name : text) : bytes -> bytes -> Prop :=
| fy_same b : file_layout h name b b
| fy_html b b' t t' : has_ext name (lit "html") -> utf8_text b t -> utf8_text b' t' -> same_template (h_ext h) t t' ->
    file_layout h name b b'.
Inductive sources_layout (h : host) : text -> ent -> ent -> Prop :=
| sy_file name b b' : file_layout h name b b' -> sources_layout h name (EFile b) (EFile b')
| sy_dir name l l' : Forall2 (fun x x' => fst x' = fst x /\ sources_layout h (fst x) (snd x) (snd x')) l l' ->
    sources_layout h name (EDir l) (EDir l')
| sy_other name : sources_layout h name EOther EOther.

(** What comes out: the same files.  The templates are part of what a build gives, and are as they were;
    they are never written to disk. *)
Inductive output_layout : node -> node -> Prop :=
| oy_file name b b' pc meta src : b' = b \/ is_template name -> output_layout (NFile name b pc meta src) (NFile name b' pc meta src)
| oy_dir name ch ch' src : Forall2 output_layout ch ch' -> output_layout (NDir name ch src) (NDir name ch' src).

(** Errors of the same kind in the same file; where in the file may be different. *)
Definition same_fault {K} (e e' : traceback K) : Prop := tb_path e' = tb_path e /\ tb_kind e' = tb_kind e.
Inductive same_failure : error -> error -> Prop :=
| sf_same e : same_failure e e
| sf_process x x' : same_fault x x' -> same_failure (E_Process x) (E_Process x').

(** Plugins that do not look at the line and the column of a tag. *)
Definition same_inner (l l' : list ltoken) : Prop := map t_inner l' = map t_inner l.
Definition unplaced_fn (f : plugin_fn) : Prop :=
  forall l l' s, l_path l' = l_path l -> both same_fault eq (pf_exec f l s) (pf_exec f l' s).
Definition unplaced_processor (c : node_processor) : Prop :=
  forall e e', ev_vars e' = ev_vars e -> like_opt same_inner (ev_root e) (ev_root e') -> like_opt same_inner (ev_md e) (ev_md e') ->
    np_process c e' = np_process c e.
Definition unplaced (ps : list plugin) : Prop :=
  forall pl, In pl ps ->
    (forall f raw g, In f (pl_fns pl) -> pp_parse f raw = inr g -> unplaced_fn g) /\
    (forall np b p c, In np (pl_parsers pl) -> npa_parse np b p = inr c -> unplaced_processor c).
(** Every call in pages and templates denotes a function. *)
Definition all_known (h : host) (ps : list plugin) (e : ent) : Prop :=
  forall ks name b t, ent_at e (ks ++ [name]) (EFile b) -> has_ext name (lit "html") -> utf8_text b t ->
    exists toks, SpecGrammar.means (h_ext h) (map (fun p => (pl_name p, pl_fns p)) ps) t toks.

(** An HTML file in the content directory. *)
Definition template_at (content q : path) : Prop := above content q /\ exists k s, q = k ++ [s ++ lit ".html"].
