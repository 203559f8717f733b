(** SpecSite.v -- what a site looks like once built, in terms of the files of the content directory
    alone (C61): no tokens, no frames, no loaded tree. *)

From Coq Require Import String List NArith ZArith Bool.
From Verif Require Import Text Utf8 Json Base Syntax Parse Tree Interp Build Disk SpecScope SpecRender SpecTemplate SpecLoop SpecBlocks SpecMarkdown SpecTree SpecDisk SpecGrammar.
Import ListNotations.

(** ** Templates as trees of blocks *)
Inductive block :=
| BText (t : text)
| BVar (v : text)
| BDate (v fmt : text)
| BExcerpt (v : text) (n : N)
| BTime (v : text)
| BImport (x file : text)
| BInsert (label : text)
| BPlugin (p : plugin_fn)
| BSection (label : text) (body : list block)
| BFor (f : for_fn) (body : list block)
| BIf (c : test) (yes : list block)
| BIfElse (c : test) (yes no : list block).

(** The tags they are written with. *)
Fixpoint tags (b : block) : list token :=
  match b with
  | BText t => [TRaw t]
  | BVar v => [TVar v]
  | BDate v fmt => [TFun (FDate v fmt)]
  | BExcerpt v n => [TFun (FExcerpt v n)]
  | BTime v => [TFun (FTime v)]
  | BImport x file => [TFun (FImport x file)]
  | BInsert label => [TFun (FInsert label)]
  | BPlugin p => [TFun (FPlugin p)]
  | BSection label body => TFun (FBegin label true) :: flat_map tags body ++ [TFun (FEnd label true)]
  | BFor f body => TFun (FFor f) :: flat_map tags body ++ [TFun (FEnd (lit "for") false)]
  | BIf c yes => TFun (test_fn c) :: flat_map tags yes ++ [TFun (FEnd (test_name c) false)]
  | BIfElse c yes no =>
      TFun (test_fn c) :: flat_map tags yes ++ TFun FElse :: flat_map tags no ++ [TFun (FEnd (test_name c) false)]
  end.
(** [t] is a way of writing the blocks. *)
Definition written (ext : char -> bool) (fns : list (text * list plugin_parser)) (t : text) (l : list block) : Prop :=
  SpecGrammar.means ext fns t (flat_map tags l).

(** Nothing inside; a call of a plugin function can be passed over if it has a name (C57). *)
Definition simple (b : block) : Prop :=
  match b with
  | BSection _ _ | BFor _ _ | BIf _ _ | BIfElse _ _ _ => False
  | BPlugin p => exists beh, behaves p beh
  | _ => True
  end.
(** The plugin functions called in a branch have names, except in loops inside it (C57). *)
Fixpoint named_calls (b : block) : Prop :=
  match b with
  | BPlugin p => named p
  | BSection _ body => fold_right (fun b P => named_calls b /\ P) True body
  | _ => True
  end.

(** ** Variables *)

(** The innermost scope that binds [k] binds it to [v]. *)
Definition bound (k : text) (sc : scopes) (v : value) : Prop :=
  exists inner vs outer, sc = inner ++ vs :: outer /\ first_binding k vs v /\
    Forall (fun ws => ~ In k (map fst ws)) inner.
(** The value of a variable with fields. *)
Definition value_of (name : text) (sc : scopes) (v : value) : Prop :=
  exists h p v0, name = dotted h p /\ ~ In c_dot h /\ Forall (fun k => ~ In c_dot k) p /\
    bound h sc v0 /\ field v0 p v.

(** The operands of comparisons. *)
Inductive means (sc : scopes) : input -> operand -> Prop :=
| me_int z : means sc (IInt z) (OpInt z)
| me_str s : means sc (IStr s) (OpStr s)
| me_var_str v s : value_of v sc (VStr s) -> means sc (IVar v) (OpStr s)
| me_var_num v f z : value_of v sc (VNum f) -> truncated f z -> means sc (IVar v) (OpInt z).
(** The comparison made by a condition: [ifle] makes that of [iflt] (C24). *)
Definition made (c : cmp) : cmp := match c with CLe => CLt | _ => c end.
(** The outcome of a condition. *)
Inductive decided (sc : scopes) : test -> bool -> Prop :=
| dc_defined v x : value_of v sc x -> x <> VNull -> decided sc (TDefined v) true
| dc_null v : (forall x, value_of v sc x -> x = VNull) -> decided sc (TDefined v) false
| dc_yes c a b x y : means sc a x -> means sc b y -> compares (made c) x y -> decided sc (TCompare c a b) true
| dc_no c a b x y : means sc a x -> means sc b y -> ~ compares (made c) x y -> decided sc (TCompare c a b) false.

(** ** Printing *)

Section Printing.
  Variable date : option (text -> text -> option text).
  (** The JSON files of the site and the markdown files of its directories, by path. *)
  Variable json_at : text -> value -> Prop.
  Variable posts_at : text -> list value -> Prop.

  (** What a block with nothing inside prints and binds. *)
  Inductive shows (sc : scopes) (secs : sections) : block -> bytes -> list (text * value) -> Prop :=
  | sh_text t o : utf8_text o t -> shows sc secs (BText t) o []
  | sh_var v t o : value_of v sc (VStr t) -> utf8_text o t -> shows sc secs (BVar v) o []
  | sh_date d v fmt t t' o : date = Some d -> value_of v sc (VStr t) -> d t fmt = Some t' -> utf8_text o t' ->
      shows sc secs (BDate v fmt) o []
  | sh_cut v n t c x rest o : value_of v sc (VStr t) -> reads n t c (x :: rest) ->
      utf8_text o (untag false c ++ lit "...") -> shows sc secs (BExcerpt v n) o []
  | sh_whole v n t o : value_of v sc (VStr t) -> reads n t t [] -> ascii t ->
      utf8_text o (untag false t) -> shows sc secs (BExcerpt v n) o []
  (** The dots are added to whole texts as well if they are not ASCII (C29). *)
  | sh_wide v n t o : value_of v sc (VStr t) -> reads n t t [] -> ~ ascii t ->
      utf8_text o (untag false t ++ lit "...") -> shows sc secs (BExcerpt v n) o []
  | sh_time v t ws t' o : value_of v sc (VStr t) -> words t ws ->
      decimal (N.max 1 (N.of_nat (length ws) / 200)) t' -> utf8_text o t' -> shows sc secs (BTime v) o []
  | sh_import x file j vs r : sc = vs :: r -> ~ In x (map fst vs) -> json_at file j ->
      shows sc secs (BImport x file) [] [(x, j)]
  | sh_insert label b : first_binding label secs b -> shows sc secs (BInsert label) b []
  (** What a plugin function does may not depend on where its tag stands. *)
  | sh_plugin p beh o new : acts p beh -> (forall l, beh l sc secs = Ok (o, new)) -> shows sc secs (BPlugin p) o new.

  (** What a loop is over. *)
  Inductive loop_over (f : for_fn) (sc : scopes) : list value -> Prop :=
  | lv_dir vs : ff_type f = SrcDir -> posts_at (ff_src f) vs -> loop_over f sc vs
  | lv_json vs : ff_type f = SrcJson -> json_at (ff_src f) (VArr vs) -> loop_over f sc vs
  | lv_var vs : ff_type f = SrcVar -> value_of (ff_src f) sc (VArr vs) -> loop_over f sc vs.

  (** [prints l sc secs o new secs']: with the variables [sc] and the sections [secs], the blocks [l]
      print [o], bind [new] in the innermost scope, and leave the sections [secs'].  Two situations
      are left out, those of C22 and C23: a loop over nothing, and blocks in a branch not taken. *)
  Inductive prints : list block -> scopes -> sections -> bytes -> list (text * value) -> sections -> Prop :=
  | pr_nil sc secs : prints [] sc secs [] [] secs
  | pr_simple b l vs r secs o new o' new' secs' : shows (vs :: r) secs b o new ->
      prints l ((vs ++ new) :: r) secs o' new' secs' ->
      prints (b :: l) (vs :: r) secs (o ++ o') (new ++ new') secs'
  | pr_section label body l sc secs o new secs1 o' new' secs' :
      prints body ([] :: sc) secs o new secs1 ->
      prints l sc (secs1 ++ [(label, o)]) o' new' secs' ->
      prints (BSection label body :: l) sc secs (o ++ o') new' secs'
  | pr_for f body l sc secs vs v out o secs1 o' new' secs' :
      loop_over f sc vs -> visits f vs (v :: out) -> repeats body (ff_var f) (v :: out) sc secs o secs1 ->
      prints l sc secs1 o' new' secs' ->
      prints (BFor f body :: l) sc secs (o ++ o') new' secs'
  | pr_if c yes l sc secs o new secs1 o' new' secs' : decided sc c true -> Forall named_calls yes ->
      prints yes ([] :: sc) secs o new secs1 -> prints l sc secs1 o' new' secs' ->
      prints (BIf c yes :: l) sc secs (o ++ o') new' secs'
  | pr_skip c yes l sc secs o' new' secs' : decided sc c false -> Forall simple yes ->
      prints l sc secs o' new' secs' ->
      prints (BIf c yes :: l) sc secs o' new' secs'
  | pr_then c yes no l sc secs o new secs1 o' new' secs' : decided sc c true -> Forall named_calls yes -> Forall simple no ->
      prints yes ([] :: sc) secs o new secs1 -> prints l sc secs1 o' new' secs' ->
      prints (BIfElse c yes no :: l) sc secs (o ++ o') new' secs'
  | pr_else c yes no l sc secs o new secs1 o' new' secs' : decided sc c false -> Forall simple yes -> Forall named_calls no ->
      prints no ([] :: sc) secs o new secs1 -> prints l sc secs1 o' new' secs' ->
      prints (BIfElse c yes no :: l) sc secs (o ++ o') new' secs'
  (** The body once for each value. *)
  with repeats : list block -> text -> list value -> scopes -> sections -> bytes -> sections -> Prop :=
  | rp_nil body x sc secs : repeats body x [] sc secs [] secs
  | rp_cons body x v vs sc secs o new secs1 o' secs' :
      prints body ([(x, v)] :: sc) secs o new secs1 -> repeats body x vs sc secs1 o' secs' ->
      repeats body x (v :: vs) sc secs (o ++ o') secs'.
End Printing.

(** ** The files of the content directory *)

(** [e'] is reached from [e] by following names. *)
Inductive ent_at : ent -> list text -> ent -> Prop :=
| ea_here e : ent_at e [] e
| ea_child l k e ks e' : In (k, e) l -> ent_at e ks e' -> ent_at (EDir l) (k :: ks) e'.
(** The names a path stands for. *)
Definition path_of (p : text) (ks : list text) : Prop :=
  exists hd tl, p = slashed hd tl /\ Forall (fun k => ~ In c_slash k) (hd :: tl) /\ (hd = [] -> tl = []) /\
    path_names (hd :: tl) ks.

(** The front matter and the body of a markdown file. *)
Definition md_parts (t : text) (fm : list (text * text)) (body : text) : Prop :=
  (~ opens_front t /\ fm = [] /\ exists ls, text_lines ls t /\ body = with_lf ls) \/
  (opens_front t /\ exists fs d ls, text_lines (lit "---" :: fs ++ d :: ls) t /\ Forall2 pair_line fm fs /\
     Forall (fun l => ~ dashes l) fs /\ dashes d /\ body = with_lf ls).
(** [l'] is [l] with the field [k] set to [x]. *)
Inductive set_field (k : text) (x : value) : list (text * value) -> list (text * value) -> Prop :=
| sf_new l : ~ In k (map fst l) -> set_field k x l (l ++ [(k, x)])
| sf_old l1 y l2 : ~ In k (map fst l1) -> set_field k x (l1 ++ (k, y) :: l2) (l1 ++ (k, x) :: l2).

Section Site.
  Variable h : host.
  Variable ps : list plugin.
  Let fns : list (text * list plugin_parser) := map (fun p => (pl_name p, pl_fns p)) ps.
  (** The variables of all pages. *)
  Variable vars : list (text * value).
  Variable content : ent.

  (** The JSON file at the path. *)
  Definition site_json (file : text) (j : value) : Prop :=
    exists ks name b t, path_of file (ks ++ [name]) /\ ent_at content (ks ++ [name]) (EFile b) /\
      has_ext name (lit "json") /\ utf8_text b t /\ h_json h t = Some j.

  (** What the fields of a markdown file with the bytes [b] are: its front matter, [content], which
      is what its body prints, turned into HTML, and [markdown], which is the body as written. *)
  Definition post (b : bytes) (v : value) : Prop :=
    exists t fm body l o new secs out l1 l2, utf8_text b t /\ md_parts t fm body /\ written (h_ext h) fns body l /\
      prints (h_date h) site_json (fun _ _ => False) l [vars] [] o new secs /\ utf8_text o out /\
      set_field (lit "content") (VStr (h_md h out)) (map (fun kv => (fst kv, VStr (snd kv))) fm) l1 /\
      set_field (lit "markdown") (VStr body) l1 l2 /\ v = VObj l2.
  (** The markdown files among the entries of a directory, in order. *)
  Inductive entry_posts : list (text * ent) -> list value -> Prop :=
  | ep_nil : entry_posts [] []
  | ep_post name b v l vs : has_ext name (lit "md") -> post b v -> entry_posts l vs ->
      entry_posts ((name, EFile b) :: l) (v :: vs)
  | ep_other name e l vs : ~ (has_ext name (lit "md") /\ exists b, e = EFile b) -> entry_posts l vs ->
      entry_posts ((name, e) :: l) vs.
  Definition site_posts (dir : text) (vs : list value) : Prop :=
    exists ks l, path_of dir ks /\ ent_at content ks (EDir l) /\ entry_posts l vs.

  (** The template called [name] of the directory [ks]: that of the closest enclosing directory
      with an entry of this name. *)
  Definition template_at (name : text) (ks : list text) (l : list block) : Prop :=
    exists ks1 ks2 b t, ks = ks1 ++ ks2 /\ ent_at content (ks1 ++ [name]) (EFile b) /\
      (forall a c e, ks2 = a ++ c -> a <> [] -> ~ ent_at content (ks1 ++ a ++ [name]) e) /\
      utf8_text b t /\ written (h_ext h) fns t l.

  Definition says (l : list block) (vs : list (text * value)) (secs : sections) (o : bytes) (secs' : sections) : Prop :=
    exists new, prints (h_date h) site_json site_posts l [vs] secs o new secs'.

  (** [page_of_file ks name b name' o]: the file [name] of the directory [ks], with the bytes [b],
      gives the page [name'] with the bytes [o]. *)
  Inductive page_of_file (ks : list text) : text -> bytes -> text -> bytes -> Prop :=
  | pf_html name b t page root o1 secs o secs' :
      has_ext name (lit "html") -> ~ is_template name ->
      utf8_text b t -> written (h_ext h) fns t page -> template_at (lit "root.html") ks root ->
      says page vars [] o1 secs -> says root vars secs o secs' ->
      page_of_file ks name b name o
  | pf_md stem b v page root o1 secs o secs' :
      stem <> [] -> post b v ->
      template_at (lit "md.html") ks page -> template_at (lit "root.html") ks root ->
      says page (vars ++ [(lit "self", v)]) [] o1 secs -> says root vars secs o secs' ->
      page_of_file ks (stem ++ lit ".md") b (stem ++ lit ".html") o
  | pf_copy name b :
      is_template name \/ has_ext name (lit "json") \/
      (~ has_ext name (lit "html") /\ ~ has_ext name (lit "md") /\
       forall e np, has_ext name e -> In np (flat_map pl_parsers ps) -> ~ In e (npa_exts np)) ->
      page_of_file ks name b name b.
  (** [published ks name o]: the site has a page [name] in the directory [ks], with the bytes [o]. *)
  Definition published (ks : list text) (name : text) (o : bytes) : Prop :=
    exists src b, ent_at content (ks ++ [src]) (EFile b) /\ page_of_file ks src b name o.

  (** A file that can be read and gives a page. *)
  Definition in_order (ks : list text) (name : text) (b : bytes) : Prop :=
    (exists name' o, page_of_file ks name b name' o) /\
    (is_template name -> exists t l, utf8_text b t /\ written (h_ext h) fns t l) /\
    (has_ext name (lit "json") -> exists t j, utf8_text b t /\ h_json h t = Some j).
  (** The whole site is in order. *)
  Definition site_in_order : Prop :=
    (exists l, content = EDir l) /\ (forall ks, ~ ent_at content ks EOther) /\
    forall ks name b, ent_at content (ks ++ [name]) (EFile b) -> in_order ks name b.
End Site.

(** The variables of all pages. *)
Definition page_vars (osenv : list (text * text)) (mode : text) : list (text * value) :=
  [(lit "env", VObj (map (fun kv => (fst kv, VStr (snd kv))) (osenv ++ [(lit "STUART_ENV", mode)])))].

(** Where a page is saved, relative to the output directory. *)
Inductive saved_as (cf : config) (ks : list text) : text -> path -> Prop :=
| sa_page name stem : stripped cf name PNone stem -> plain stem -> saved_as cf ks name (ks ++ [stem; lit "index.html"])
| sa_nameless name stem : stripped cf name PNone stem -> stem = [] \/ stem = [c_dot] -> saved_as cf ks name (ks ++ [lit "index.html"])
| sa_whole name : (forall stem, ~ stripped cf name PNone stem) -> saved_as cf ks name (ks ++ [name]).

Section Saved.
  Variable h : host.
  Variable ps : list plugin.
  Variable vars : list (text * value).
  Variable content : ent.
  Variable cf : config.
  (** A page with the bytes [o] is saved at [q]. *)
  Definition page_at (q : path) (o : bytes) : Prop :=
    exists ks name, published h ps vars content ks name o /\ ~ hidden cf name /\ saved_as cf ks name q.
  (** A directory is needed at [q]. *)
  Definition dir_at (q : path) : Prop :=
    (exists l, ent_at content q (EDir l)) \/
    exists ks name o stem, published h ps vars content ks name o /\ ~ hidden cf name /\ stripped cf name PNone stem /\ q = ks ++ [stem].
  (** The static files: these are saved under their own names. *)
  Variable statics : ent.
  Definition file_at (q : path) (o : bytes) : Prop :=
    page_at q o \/ (ent_at statics q (EFile o) /\ forall ks k, q = ks ++ [k] -> ~ hidden cf k).
  Definition folder_at (q : path) : Prop := dir_at q \/ exists l, ent_at statics q (EDir l).
  (** No two files with different contents have the same place, and no file has that of a directory. *)
  Definition no_overlap : Prop :=
    (forall q o o', file_at q o -> file_at q o' -> o = o') /\ forall q o, file_at q o -> ~ folder_at q.
  (** Nothing of the static directory has the name of a page, and no file of it that of a directory
      of the content directory. *)
  Definition no_conflict : Prop :=
    (forall ks name e o, ent_at statics (ks ++ [name]) e -> ~ published h ps vars content ks name o) /\
    (forall ks b l, ent_at statics ks (EFile b) -> ~ ent_at content ks (EDir l)).
  (** The static directory, if there is one. *)
  Definition static_in_order : Prop := (exists l, statics = EDir l) /\ forall ks, ~ ent_at statics ks EOther.
End Saved.
(** Nothing in both directories, except directories. *)
Definition share_dirs (s t : ent) : Prop :=
  forall ks x y, ent_at s ks x -> ent_at t ks y -> (exists l, x = EDir l) /\ exists l, y = EDir l.
(** The files and directories of both. *)
Definition overlay (s t u : ent) : Prop :=
  (forall ks b, ent_at u ks (EFile b) <-> ent_at s ks (EFile b) \/ ent_at t ks (EFile b)) /\
  (forall ks, (exists l, ent_at u ks (EDir l)) <-> (exists l, ent_at s ks (EDir l)) \/ exists l, ent_at t ks (EDir l)).
