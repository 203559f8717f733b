(** SpecNeeds.v -- which files of the content directory a page asks for (C88). *)

From Coq Require Import String List NArith ZArith Bool.
From Verif Require Import Text Utf8 Json Base Syntax Parse Tree Interp Build SpecTemplate SpecGrammar SpecTree SpecSite SpecBlame SpecLocal.
Import ListNotations.

(** A tag that reads the file or directory [s]. *)
Inductive asks : token -> text -> Prop :=
| as_import v s : asks (TFun (FImport v s)) s
| as_for f : ff_type f <> SrcVar -> asks (TFun (FFor f)) (ff_src f).
(** The file [ks] has such a tag. *)
Definition asks_for (h : host) (ps : list plugin) (content : ent) (ks : list text) (s : text) : Prop :=
  exists body toks k, tagged_text content ks body /\
    SpecGrammar.means (h_ext h) (map (fun p => (pl_name p, pl_fns p)) ps) body toks /\ In k toks /\ asks k s.
(** What the page made from the file [name] of the directory [ks] asks for: its own tags, those of the
    templates of its directory and the directories around it, and those of the markdown files in a
    directory it asks for. *)
Inductive needs (h : host) (ps : list plugin) (content : ent) (ks : list text) (name : text) : text -> Prop :=
| ne_own s : asks_for h ps content (ks ++ [name]) s -> needs h ps content ks name s
| ne_template ks1 ks2 t s : ks = ks1 ++ ks2 -> is_template t -> asks_for h ps content (ks1 ++ [t]) s -> needs h ps content ks name s
| ne_post s0 qs q s : needs h ps content ks name s0 -> path_of s0 qs -> has_ext q (lit "md") -> asks_for h ps content (qs ++ [q]) s ->
    needs h ps content ks name s.

(** The markdown files of a directory, in its order. *)
Inductive posts : list (text * ent) -> list (text * bytes) -> Prop :=
| po_nil : posts [] []
| po_take k b l r : has_ext k (lit "md") -> posts l r -> posts ((k, EFile b) :: l) ((k, b) :: r)
| po_skip k e l r : ~ has_ext k (lit "md") \/ (forall b, e <> EFile b) -> posts l r -> posts ((k, e) :: l) r.
Definition has_posts (e : ent) (qs : list text) (ms : list (text * bytes)) : Prop := exists l, ent_at e qs (EDir l) /\ posts l ms.
(** The two directories have the same at [qs]: the same file, or directories with the same markdown
    files, or nothing. *)
Definition same_there (e e' : ent) (qs : list text) : Prop :=
  (forall b, ent_at e qs (EFile b) <-> ent_at e' qs (EFile b)) /\ (forall ms, has_posts e qs ms <-> has_posts e' qs ms).
(** The same templates in the directory [ks] and around it (a directory called like one hides those
    further out). *)
Definition same_around (e e' : ent) (ks : list text) : Prop :=
  forall ks1 ks2 t, ks = ks1 ++ ks2 -> is_template t ->
    (forall b, ent_at e (ks1 ++ [t]) (EFile b) <-> ent_at e' (ks1 ++ [t]) (EFile b)) /\
    ((exists l, ent_at e (ks1 ++ [t]) (EDir l)) <-> (exists l, ent_at e' (ks1 ++ [t]) (EDir l))).

(** [e'] is [e] with the file [name] of the directory [ks] added, removed or changed. *)
Definition maybe_file (name : text) (o : option bytes) : list (text * ent) := match o with Some b => [(name, EFile b)] | None => [] end.
Inductive changed : list text -> text -> ent -> ent -> Prop :=
| cg_here name o o' l1 l2 : ~ In name (map fst (l1 ++ l2)) ->
    changed [] name (EDir (l1 ++ maybe_file name o ++ l2)) (EDir (l1 ++ maybe_file name o' ++ l2))
| cg_below k ks name e e' l1 l2 : changed ks name e e' -> changed (k :: ks) name (EDir (l1 ++ (k, e) :: l2)) (EDir (l1 ++ (k, e') :: l2)).
