(** SpecShare.v -- templates that import a data file once and loop over the variable (C107). *)

From Coq Require Import String List NArith ZArith Bool.
From Verif Require Import Text Utf8 Json Base Syntax Parse Tree Build Disk SpecScope SpecRender SpecTemplate SpecBlocks SpecTree SpecDisk SpecSite.
Import ListNotations.

(** [v] is the variable [x] or a field of it. *)
Definition about (x v : text) : Prop := exists p, v = dotted x p.
Definition test_about (x : text) (c : test) : Prop :=
  match c with
  | TDefined v => about x v
  | TCompare _ a b => (exists v, a = IVar v /\ about x v) \/ (exists v, b = IVar v /\ about x v)
  end.
(** The loop [f], over the variable [x]. *)
Definition over_variable (x : text) (f : for_fn) : for_fn :=
  ForFn (ff_var f) x SrcVar (ff_skip f) (ff_limit f) (ff_sort f) (ff_desc f).

Section Share.
  Variable x file : text.
  (** The same block, except that some of the loops over the data file, at any depth, are loops over
      the variable.  Nothing else is about this variable, and no plugin function is called. *)
  Inductive shared : block -> block -> Prop :=
  | hd_text t : shared (BText t) (BText t)
  | hd_var v : ~ about x v -> shared (BVar v) (BVar v)
  | hd_date v fmt : ~ about x v -> shared (BDate v fmt) (BDate v fmt)
  | hd_excerpt v n : ~ about x v -> shared (BExcerpt v n) (BExcerpt v n)
  | hd_time v : ~ about x v -> shared (BTime v) (BTime v)
  | hd_import y g : y <> x -> shared (BImport y g) (BImport y g)
  | hd_insert label : shared (BInsert label) (BInsert label)
  | hd_section label l l' : Forall2 shared l l' -> shared (BSection label l) (BSection label l')
  | hd_for f l l' : ff_var f <> x -> (ff_type f = SrcVar -> ~ about x (ff_src f)) -> Forall2 shared l l' ->
      shared (BFor f l) (BFor f l')
  | hd_over f l l' : ff_var f <> x -> ff_type f = SrcJson -> ff_src f = file -> Forall2 shared l l' ->
      shared (BFor f l) (BFor (over_variable x f) l')
  | hd_if c l l' : ~ test_about x c -> Forall2 shared l l' -> shared (BIf c l) (BIf c l')
  | hd_ifelse c l l' m m' : ~ test_about x c -> Forall2 shared l l' -> Forall2 shared m m' ->
      shared (BIfElse c l m) (BIfElse c l' m').
End Share.

(** ** Sites *)
Section Site.
  Variable h : host.
  Variable ps : list plugin.
  Variable vars : list (text * value).
  Variable content : ent.
  Let fns := map (fun p => (pl_name p, pl_fns p)) ps.

  (** The second template imports a data file of the site first, with a variable that is not one of
      all pages, and its loops may be over this variable instead of the file. *)
  Definition imported_text (b b' : bytes) : Prop :=
    exists t t' x file j l l', utf8_text b t /\ utf8_text b' t' /\ written (h_ext h) fns t l /\
      written (h_ext h) fns t' (BImport x file :: l') /\ Forall2 (shared x file) l l' /\
      site_json h content file j /\ ~ In c_dot x /\ ~ In x (map fst vars) /\ x <> lit "self".
  (** Two directories that differ in this way in their HTML files. *)
  Inductive imported : text -> ent -> ent -> Prop :=
  | ip_same name b : imported name (EFile b) (EFile b)
  | ip_other name : imported name EOther EOther
  | ip_file name b b' : has_ext name (lit "html") -> imported_text b b' -> imported name (EFile b) (EFile b')
  | ip_dir name l l' : Forall2 (fun x x' => fst x = fst x' /\ imported (fst x) (snd x) (snd x')) l l' -> imported name (EDir l) (EDir l').
End Site.
