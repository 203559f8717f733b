(** SpecSections.v -- pages in which the sections stand in another order, with other text around them (C101). *)

From Coq Require Import String List NArith ZArith Bool.
From Verif Require Import Text Utf8 Json Base Syntax Parse Tree Interp Build Disk SpecChars SpecScope SpecRender SpecBlocks SpecTree SpecDisk SpecSite.
Import ListNotations.

(** ** Blocks *)
(** The sections a block records, at any depth. *)
Fixpoint sections_of (b : block) : list text :=
  match b with
  | BSection label body => label :: flat_map sections_of body
  | BFor _ body | BIf _ body => flat_map sections_of body
  | BIfElse _ yes no => flat_map sections_of yes ++ flat_map sections_of no
  | _ => []
  end.
(** Those it asks for. *)
Fixpoint inserted (b : block) : list text :=
  match b with
  | BInsert label => [label]
  | BSection _ body | BFor _ body | BIf _ body => flat_map inserted body
  | BIfElse _ yes no => flat_map inserted yes ++ flat_map inserted no
  | _ => []
  end.
(** Neither records a section that the other records or asks for. *)
Definition unrelated (b b' : block) : Prop :=
  forall n, (In n (sections_of b) -> ~ In n (sections_of b') /\ ~ In n (inserted b')) /\ (In n (sections_of b') -> ~ In n (inserted b)).

(** The blocks of a page, with its sections in another order and other text between them: also in
    the conditionals and loops of the page, but not inside a section. *)
Inductive reordered : list block -> list block -> Prop :=
| ro_same l : reordered l l
| ro_text t o : utf8_text o t -> reordered [BText t] []
| ro_swap a body b body' : unrelated (BSection a body) (BSection b body') ->
    reordered [BSection a body; BSection b body'] [BSection b body'; BSection a body]
| ro_app a a' b b' : reordered a a' -> reordered b b' -> reordered (a ++ b) (a' ++ b')
| ro_for f body body' : reordered body body' -> reordered [BFor f body] [BFor f body']
| ro_if c yes yes' : reordered yes yes' -> reordered [BIf c yes] [BIf c yes']
| ro_ifelse c yes yes' no no' : reordered yes yes' -> reordered no no' -> reordered [BIfElse c yes no] [BIfElse c yes' no']
| ro_sym a b : reordered a b -> reordered b a
| ro_trans a b c : reordered a b -> reordered b c -> reordered a c.

(** ** Plugins *)
(** What the function does has nothing to do with the sections recorded so far. *)
Definition unmoved (p : plugin_fn) : Prop :=
  forall beh l sc secs secs', acts p beh -> sc <> [] -> beh l sc secs' = beh l sc secs.

(** ** Sites *)
Section Site.
  Variable h : host.
  Variable ps : list plugin.
  Let fns := map (fun p => (pl_name p, pl_fns p)) ps.
  Definition reordered_text (b b' : bytes) : Prop :=
    exists t t' l l', utf8_text b t /\ utf8_text b' t' /\ written (h_ext h) fns t l /\ written (h_ext h) fns t' l' /\ reordered l l'.
  (** Two directories that differ in this way in their HTML files, all but the layouts root.html. *)
  Inductive rearranged : text -> ent -> ent -> Prop :=
  | ra_same name b : rearranged name (EFile b) (EFile b)
  | ra_other name : rearranged name EOther EOther
  | ra_file name b b' : has_ext name (lit "html") -> name <> lit "root.html" -> reordered_text b b' -> rearranged name (EFile b) (EFile b')
  | ra_dir name l l' : Forall2 (fun x x' => fst x = fst x' /\ rearranged (fst x) (snd x) (snd x')) l l' -> rearranged name (EDir l) (EDir l').
End Site.
