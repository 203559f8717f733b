(** SpecUnused.v -- pages without some sections that nothing asks for (C109). *)

From Coq Require Import String List NArith ZArith Bool.
From Verif Require Import Text Utf8 Json Base Syntax Parse Tree Interp Build Disk SpecChars SpecScope SpecRender SpecBlocks SpecTree SpecDisk SpecSite SpecSections.
Import ListNotations.

(** [l'] is [l] without some sections, none of which is called by a name of [asked], nor are those inside them:
    also in the conditionals and loops of the page, but not inside a section that stays. *)
Inductive fewer (asked : text -> Prop) : list block -> list block -> Prop :=
| fw_same l : fewer asked l l
| fw_drop label body : (forall n, In n (sections_of (BSection label body)) -> ~ asked n) -> fewer asked [BSection label body] []
| fw_app a a' b b' : fewer asked a a' -> fewer asked b b' -> fewer asked (a ++ b) (a' ++ b')
| fw_for f body body' : fewer asked body body' -> fewer asked [BFor f body] [BFor f body']
| fw_if c yes yes' : fewer asked yes yes' -> fewer asked [BIf c yes] [BIf c yes']
| fw_ifelse c yes yes' no no' : fewer asked yes yes' -> fewer asked no no' -> fewer asked [BIfElse c yes no] [BIfElse c yes' no'].

Section Site.
  Variable h : host.
  Variable ps : list plugin.
  Let fns := map (fun p => (pl_name p, pl_fns p)) ps.
  (** Some HTML file of the directory inserts a section of this name. *)
  Definition asked_in (e : ent) (n : text) : Prop :=
    exists ks name b t l, ent_at e (ks ++ [name]) (EFile b) /\ has_ext name (lit "html") /\ utf8_text b t /\ written (h_ext h) fns t l /\ In n (flat_map inserted l).
  Definition fewer_text (asked : text -> Prop) (b b' : bytes) : Prop :=
    exists t t' l l', utf8_text b t /\ utf8_text b' t' /\ written (h_ext h) fns t l /\ written (h_ext h) fns t' l' /\ fewer asked l l'.
  (** Two directories that differ in this way in their HTML files, all but the layouts root.html. *)
  Inductive thinned (asked : text -> Prop) : text -> ent -> ent -> Prop :=
  | th_same name b : thinned asked name (EFile b) (EFile b)
  | th_other name : thinned asked name EOther EOther
  | th_file name b b' : has_ext name (lit "html") -> name <> lit "root.html" -> fewer_text asked b b' -> thinned asked name (EFile b) (EFile b')
  | th_dir name l l' : Forall2 (fun x x' => fst x = fst x' /\ thinned asked (fst x) (snd x) (snd x')) l l' -> thinned asked name (EDir l) (EDir l').
End Site.
