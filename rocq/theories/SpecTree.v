(** SpecTree.v -- trees of files: what a build makes of them, paths into them, their union, and
    their description (C34 to C38, C47). *)

From Coq Require Import String List NArith ZArith Bool.
From Verif Require Import Text Utf8 Json Base Syntax Parse Tree Interp Build SpecTemplate SpecScope SpecPage.
Import ListNotations.

(** ** Names *)
Definition is_template (name : text) : Prop := name = lit "root.html" \/ name = lit "md.html".
(** [name] is a non-empty stem, a dot and the extension. *)
Definition has_ext (name ext : text) : Prop :=
  exists stem, name = stem ++ [c_dot] ++ ext /\ stem <> [] /\ ~ In c_dot ext.

(** ** Loading *)

(** The tree of a directory: the same names in the same order, the same bytes. *)
Inductive loaded : text -> ent -> node -> Prop :=
| lo_file name b p src : loaded name (EFile b) (NFile name b p None src)
| lo_dir name l ch src : Forall2 (fun e => loaded (fst e) (snd e)) l ch -> loaded name (EDir l) (NDir name ch src).

(** No two entries of a directory have the same name. *)
Inductive ent_distinct : ent -> Prop :=
| ed_file b : ent_distinct (EFile b)
| ed_other : ent_distinct EOther
| ed_dir l : NoDup (map fst l) -> Forall (fun e => ent_distinct (snd e)) l -> ent_distinct (EDir l).

(** ** What becomes of a directory *)
Inductive built_from (ps : list plugin) : text -> ent -> node -> Prop :=
| bf_dir name l ch src : Forall2 (fun e => built_from ps (fst e) (snd e)) l ch -> built_from ps name (EDir l) (NDir name ch src)
| bf_markdown stem b b' p meta src : stem <> [] ->
    built_from ps (stem ++ lit ".md") (EFile b) (NFile (stem ++ lit ".html") b' p meta src)
| bf_html name b b' p meta src : has_ext name (lit "html") -> ~ is_template name -> built_from ps name (EFile b) (NFile name b' p meta src)
| bf_plugin name name' ext np b b' p meta src : has_ext name ext -> In np (flat_map pl_parsers ps) -> In ext (npa_exts np) ->
    ext <> lit "html" -> ext <> lit "md" -> ext <> lit "json" -> built_from ps name (EFile b) (NFile name' b' p meta src)
| bf_same name b p meta src :
    ~ has_ext name (lit "md") -> (has_ext name (lit "html") -> is_template name) ->
    (forall ext np, has_ext name ext -> In np (flat_map pl_parsers ps) -> In ext (npa_exts np) -> ext = lit "html" \/ ext = lit "json") ->
    built_from ps name (EFile b) (NFile name b p meta src).

(** ** Templates *)
Definition html_of (n : node) : option (list ltoken) := match n with NFile _ _ (PHtml t) _ _ => Some t | _ => None end.
(** The template called [name] that is in force in directories with these entries, the innermost
    first: that of the closest directory with an entry of this name. *)
Inductive template_of (name : text) : list (list node) -> option (list ltoken) -> Prop :=
| to_none : template_of name [] None
| to_here ch ds n : In n ch -> n_name n = name -> template_of name (ch :: ds) (html_of n)
| to_up ch ds t : ~ In name (map n_name ch) -> template_of name ds t -> template_of name (ch :: ds) t.

(** The same tree with every file replaced according to [R], which is also given the entries of
    the enclosing directories, the innermost first. *)
Inductive mirror (R : list (list node) -> node -> node -> Prop) : list (list node) -> node -> node -> Prop :=
| mi_file anc name b p meta src out : R anc (NFile name b p meta src) out -> mirror R anc (NFile name b p meta src) out
| mi_dir anc name ch src ch' : Forall2 (mirror R (ch :: anc)) ch ch' -> mirror R anc (NDir name ch src) (NDir name ch' src).

(** Pages. *)
Inductive page_of : node -> page -> Prop :=
| pg_html name b t meta src : ~ is_template name -> page_of (NFile name b (PHtml t) meta src) (PageHtml t)
| pg_md name b m meta src : ~ is_template name -> page_of (NFile name b (PMarkdown m) meta src) (PageMd name m).

(** What is published for a file below directories with the entries [anc]. *)
Inductive publishes (pr : processor) (vars : list (text * text)) (anc : list (list node)) : node -> node -> Prop :=
| pu_page f p root md o b name' meta : page_of f p -> template_of (lit "root.html") anc root -> template_of (lit "md.html") anc md ->
    render_page pr (Env vars root md) (n_source f) p = Ok o -> po_contents o = Some b ->
    (forall t, p = PageHtml t -> name' = n_name f) ->
    (forall n m, p = PageMd n m -> exists stem, n_name f = stem ++ lit ".md" /\ name' = stem ++ lit ".html") ->
    publishes pr vars anc f (NFile name' b PNone meta (n_source f))
| pu_plugin name b c meta src root md o meta' : ~ is_template name ->
    template_of (lit "root.html") anc root -> template_of (lit "md.html") anc md -> np_process c (Env vars root md) = inr o ->
    publishes pr vars anc (NFile name b (PCustom c) meta src)
      (NFile (match po_name o with Some n => n | None => name end) (match po_contents o with Some b' => b' | None => b end) PNone meta' src)
| pu_copy name b p meta src meta' : is_template name \/ (exists v, p = PJson v) \/ p = PNone \/ p = PIgnored ->
    publishes pr vars anc (NFile name b p meta src) (NFile name b PNone meta' src).

(** The error of a file. *)
Inductive fails (pr : processor) (vars : list (text * text)) (anc : list (list node)) : node -> error -> Prop :=
| fa_page f p root md x : page_of f p -> template_of (lit "root.html") anc root -> template_of (lit "md.html") anc md ->
    render_page pr (Env vars root md) (n_source f) p = Err x -> fails pr vars anc f (E_Process x)
| fa_plugin name b c meta src root md x : ~ is_template name -> template_of (lit "root.html") anc root ->
    template_of (lit "md.html") anc md -> np_process c (Env vars root md) = inl x ->
    fails pr vars anc (NFile name b (PCustom c) meta src) (E_Plugin x).

(** What a markdown body prints. *)
Definition body_prints (pr : processor) (m : markdown) (out : text) : Prop :=
  exists b s f, pr_base pr = Some b /\ phase pr (md_tokens m) [b] [] = Ok s /\ sc_stack s = [f] /\ fr_out f = enc out.
(** A file once its markdown body has been rendered. *)
Inductive preprocessed (pr : processor) (anc : list (list node)) : node -> node -> Prop :=
| pp_md name b m meta src out : body_prints pr m out ->
    preprocessed pr anc (NFile name b (PMarkdown m) meta src)
      (NFile name b (PMarkdown (Markdown (md_front m) (md_tokens m) (md_string m) (Some (h_md (pr_host pr) out)))) meta src)
| pp_other name b p meta src : (forall m, p <> PMarkdown m) -> preprocessed pr anc (NFile name b p meta src) (NFile name b p meta src).

(** A file of the tree and the entries of the directories around it. *)
Inductive found : node -> list (list node) -> node -> Prop :=
| fo_here n : found n [] n
| fo_child name ch src c anc n : In c ch -> found c anc n -> found (NDir name ch src) (anc ++ [ch]) n.

(** ** Building without panics *)

(** The plugins give functions satisfying [P]. *)
Definition plugins_give (P : plugin_fn -> Prop) (ps : list plugin) : Prop :=
  forall pl f raw g, In pl ps -> In f (pl_fns pl) -> pp_parse f raw = inr g -> P g.
(** No markdown body of the tree has a loop over a directory with markdown files. *)
Definition bodies_ready (input : node) : Prop :=
  forall name b m meta src, inside (NFile name b (PMarkdown m) meta src) input -> loops_ready input (md_tokens m).

(** ** Paths *)

(** Texts separated by slashes. *)
Fixpoint slashed (h : text) (p : list text) : text :=
  match p with [] => h | k :: p' => h ++ [c_slash] ++ slashed k p' end.
(** [n] is reached from the tree by following names. *)
Inductive at_names : node -> list text -> node -> Prop :=
| an_here n : at_names n [] n
| an_child name ch src c ks n : In c ch -> at_names c ks n -> at_names (NDir name ch src) (n_name c :: ks) n.
(** No two entries of a directory have the same name. *)
Inductive distinct : node -> Prop :=
| di_file name b p meta src : distinct (NFile name b p meta src)
| di_dir name ch src : NoDup (map n_name ch) -> Forall distinct ch -> distinct (NDir name ch src).
(** The names that a path consists of: empty ones and [.] are dropped. *)
Inductive path_names : list text -> list text -> Prop :=
| pn_nil : path_names [] []
| pn_skip c l l' : c = [] \/ c = [c_dot] -> path_names l l' -> path_names (c :: l) l'
| pn_keep c l l' : c <> [] -> c <> [c_dot] -> c <> [c_dot; c_dot] -> path_names l l' -> path_names (c :: l) (c :: l').

(** A path of a template and what it stands for. *)
Definition resolves (t : node) (p : text) (n : node) : Prop :=
  exists hd tl ks, p = slashed hd tl /\ Forall (fun k => ~ In c_slash k) (hd :: tl) /\ (hd = [] -> tl = []) /\
    path_names (hd :: tl) ks /\ at_names t ks n.

(** ** Union *)

(** A path that is a file in one tree and present in the other. *)
Definition conflict (a b : node) (p : list text) (na nb : node) : Prop :=
  at_names a p na /\ at_names b p nb /\ (is_dir na = false \/ is_dir nb = false).
(** The same file, or both are directories. *)
Definition same_node (x y : node) : Prop :=
  match x, y with
  | NFile n b p m s, NFile n' b' p' m' s' => n = n' /\ b = b' /\ p = p' /\ m = m' /\ s = s'
  | NDir _ _ _, NDir _ _ _ => True
  | _, _ => False
  end.

(** ** Description *)

(** What is recorded about a file of the content directory for the metadata. *)
Inductive recorded : parsed -> option value -> Prop :=
| re_md m : recorded (PMarkdown m)
    (Some (VObj [(lit "type", VStr (lit "markdown")); (lit "value", VObj (map (fun kv => (fst kv, VStr (snd kv))) (md_front m)))]))
| re_json v : recorded (PJson v) (Some (VObj [(lit "type", VStr (lit "json")); (lit "value", v)]))
| re_plugin c : recorded (PCustom c) (Some (np_json c))
| re_html t : recorded (PHtml t) None
| re_none : recorded PNone None
| re_ignored : recorded PIgnored None.
Definition records (f out : node) : Prop :=
  match f, out with NFile _ _ p _ _, NFile _ _ _ meta _ => recorded p meta | _, _ => False end.

(** What the metadata says about a file: its name, and the kind and value recorded when it was
    built. *)
Inductive described : node -> value -> Prop :=
| de_dir name ch src vs : Forall2 described ch vs ->
    described (NDir name ch src)
      (VObj [(lit "type", VStr (lit "directory")); (lit "name", VStr name); (lit "children", VArr vs)])
| de_plain name b p src : described (NFile name b p None src) (VObj [(lit "name", VStr name); (lit "type", VStr (lit "file"))])
| de_kind name b p kind v src :
    described (NFile name b p (Some (VObj [(lit "type", kind); (lit "value", v)])) src)
      (VObj [(lit "name", VStr name); (lit "type", kind); (lit "value", v)]).
(** Every file has nothing recorded, or a kind and a value. *)
Definition describable (n : node) : Prop :=
  forall name b p meta src, inside (NFile name b p meta src) n ->
    meta = None \/ exists kind v, meta = Some (VObj [(lit "type", kind); (lit "value", v)]).

(** ** Histories of a builder *)
Inductive history (c : config) (ps : list plugin) : bool -> stuart -> Prop :=
| hi_new : history c ps false (stuart_new c ps)
| hi_built b st h osenv mode d : history c ps b st -> snd (build h osenv mode d st) = Ok tt ->
    history c ps true (fst (build h osenv mode d st))
| hi_failed b st h osenv mode d : history c ps b st -> snd (build h osenv mode d st) <> Ok tt ->
    history c ps b (fst (build h osenv mode d st))
| hi_merge b st n : history c ps b st -> history c ps b (fst (merge_output n st)).
