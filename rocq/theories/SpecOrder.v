(** SpecOrder.v -- the order in which directories list their entries (C73). *)

From Coq Require Import String List NArith ZArith Bool Permutation.
From Verif Require Import Text Utf8 Json Base Syntax Parse Tree SpecScope SpecChars SpecTemplate SpecTree SpecSite.
Import ListNotations.

(** The same directory, with the entries in another order, at every depth. *)
Inductive shuffled : ent -> ent -> Prop :=
| sh_file b : shuffled (EFile b) (EFile b)
| sh_other : shuffled EOther EOther
| sh_dir l l1 l2 : Forall2 (fun x y => fst y = fst x /\ shuffled (snd x) (snd y)) l l1 -> Permutation l1 l2 -> shuffled (EDir l) (EDir l2).
(** The same tree, with the children in another order, at every depth. *)
Inductive reordered : node -> node -> Prop :=
| ro_file name b p meta src : reordered (NFile name b p meta src) (NFile name b p meta src)
| ro_dir name ch ch1 ch2 src : Forall2 reordered ch ch1 -> Permutation ch1 ch2 -> reordered (NDir name ch src) (NDir name ch2 src).

(** The value of the key in the front matter of a markdown file; nothing counts as empty. *)
Definition front_key (key : text) (b : bytes) (v : text) : Prop :=
  exists t fm body, utf8_text b t /\ md_parts t fm body /\ (first_binding key fm v \/ (v = [] /\ ~ In key (map fst fm))).
(** The loop sorts by a key of the front matter in which the two files differ. *)
Definition told_apart (f : for_fn) (b1 b2 : bytes) : Prop :=
  exists x key, ff_sort f = Some (x ++ [c_dot] ++ key) /\ ~ In c_dot x /\ ~ In c_dot key /\ key <> lit "content" /\ key <> lit "markdown" /\
    forall v1 v2, front_key key b1 v1 -> front_key key b2 v2 -> v1 <> v2.
(** The template with the text [t] has the loop [f] over a directory. *)
Definition loop_in (h : host) (ps : list plugin) (t : text) (f : for_fn) : Prop :=
  ff_type f = SrcDir /\ exists p toks l, parse_html (h_ext h) (map (fun pl => (pl_name pl, pl_fns pl)) ps) p t = Ok toks /\ In (LTok (TFun (FFor f)) l) toks.
(** Every loop of a template over a directory sorts the markdown files of that directory, leaving no
    ties. *)
Definition loops_sorted (h : host) (ps : list plugin) (e : ent) : Prop :=
  forall ks name b t f kd l, ent_at e (ks ++ [name]) (EFile b) -> has_ext name (lit "html") -> utf8_text b t -> loop_in h ps t f ->
    path_of (ff_src f) kd -> ent_at e kd (EDir l) ->
    forall k1 b1 k2 b2, In (k1, EFile b1) l -> In (k2, EFile b2) l -> has_ext k1 (lit "md") -> has_ext k2 (lit "md") -> k1 <> k2 -> told_apart f b1 b2.
