(** SpecRename.v -- templates that differ in the names of their variables (C89). *)

From Coq Require Import String List NArith ZArith Bool.
From Verif Require Import Text Utf8 Json Base Syntax Parse Tree Interp Build SpecTemplate SpecChars SpecGrammar SpecScope SpecTree SpecSite SpecLocal.
Import ListNotations.

(** [R a a']: the variable [a] is now called [a'].  Different variables keep different names, and the
    variables that Stuart itself defines keep theirs. *)
Definition one_to_one (R : text -> text -> Prop) : Prop :=
  (forall a a' b b', R a a' -> R b b' -> (a = b <-> a' = b')) /\
  (forall a a', R a a' -> (a = lit "env" <-> a' = lit "env")) /\ (forall a a', R a a' -> (a = lit "self" <-> a' = lit "self")).
(** A variable with the fields that are asked of it. *)
Definition name_change (R : text -> text -> Prop) (v v' : text) : Prop :=
  exists a a' ks, v = dotted a ks /\ v' = dotted a' ks /\ Forall (fun k => ~ In c_dot k) (a :: a' :: ks) /\ R a a'.
Inductive input_change (R : text -> text -> Prop) : input -> input -> Prop :=
| ic_var v v' : name_change R v v' -> input_change R (IVar v) (IVar v')
| ic_str s : input_change R (IStr s) (IStr s)
| ic_int z : input_change R (IInt z) (IInt z).
Definition sort_change (R : text -> text -> Prop) (o o' : option text) : Prop :=
  match o, o' with Some v, Some v' => name_change R v v' | None, None => True | _, _ => False end.
(** The same tag but for the names of variables. *)
Inductive tag_change (R : text -> text -> Prop) : token -> token -> Prop :=
| tc_raw s : tag_change R (TRaw s) (TRaw s)
| tc_var v v' : name_change R v v' -> tag_change R (TVar v) (TVar v')
| tc_begin l c : tag_change R (TFun (FBegin l c)) (TFun (FBegin l c))
| tc_end l c : tag_change R (TFun (FEnd l c)) (TFun (FEnd l c))
| tc_else : tag_change R (TFun FElse) (TFun FElse)
| tc_insert l : tag_change R (TFun (FInsert l)) (TFun (FInsert l))
| tc_date v v' f : name_change R v v' -> tag_change R (TFun (FDate v f)) (TFun (FDate v' f))
| tc_excerpt v v' n : name_change R v v' -> tag_change R (TFun (FExcerpt v n)) (TFun (FExcerpt v' n))
| tc_time v v' : name_change R v v' -> tag_change R (TFun (FTime v)) (TFun (FTime v'))
| tc_ifdefined v v' : name_change R v v' -> tag_change R (TFun (FIfDefined v)) (TFun (FIfDefined v'))
| tc_import v v' file : name_change R v v' -> tag_change R (TFun (FImport v file)) (TFun (FImport v' file))
| tc_if c a a' b b' : input_change R a a' -> input_change R b b' -> tag_change R (TFun (FIf c a b)) (TFun (FIf c a' b'))
| tc_for_file v v' s ty sk li so so' d : name_change R v v' -> ty <> SrcVar -> sort_change R so so' ->
    tag_change R (TFun (FFor (ForFn v s ty sk li so d))) (TFun (FFor (ForFn v' s ty sk li so' d)))
| tc_for_var v v' s s' sk li so so' d : name_change R v v' -> name_change R s s' -> sort_change R so so' ->
    tag_change R (TFun (FFor (ForFn v s SrcVar sk li so d))) (TFun (FFor (ForFn v' s' SrcVar sk li so' d))).

Section Renamed.
  Variable h : host.
  Variable ps : list plugin.
  (** Two templates that differ in the names of their variables. *)
  Definition renamed_text (b b' : bytes) : Prop :=
    exists R t t' ks ks', one_to_one R /\ SpecChars.utf8_text b t /\ SpecChars.utf8_text b' t' /\
      SpecGrammar.means (h_ext h) (map (fun p => (pl_name p, pl_fns p)) ps) t ks /\
      SpecGrammar.means (h_ext h) (map (fun p => (pl_name p, pl_fns p)) ps) t' ks' /\ Forall2 (tag_change R) ks ks'.
  (** Two directories that differ in the names of variables, each template with its own renaming.  The
      templates that surround pages may be renamed where no plugin provides functions or kinds of files
      (a function of a plugin may leave variables behind for them, and a file of a plugin may look at
      them). *)
  Inductive renamed : text -> ent -> ent -> Prop :=
  | rn_same name e : renamed name e e
  | rn_file name b b' : has_ext name (lit "html") -> (is_template name -> Forall (fun p => pl_fns p = [] /\ pl_parsers p = []) ps) ->
      renamed_text b b' -> renamed name (EFile b) (EFile b')
  | rn_dir name l l' : renamed_all l l' -> renamed name (EDir l) (EDir l')
  with renamed_all : list (text * ent) -> list (text * ent) -> Prop :=
  | ra_nil : renamed_all [] []
  | ra_cons k e e' l l' : renamed k e e' -> renamed_all l l' -> renamed_all ((k, e) :: l) ((k, e') :: l').
End Renamed.

(** The two sites have the same files in the same places, but for the templates, which are in
    the tree of the site but are never saved. *)
Definition same_pages (out out' : node) : Prop :=
  forall ks src name o, ~ is_template (last src []) -> (page_from out ks src name o <-> page_from out' ks src name o).
