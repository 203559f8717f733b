(** SpecCommand.v -- projects that nothing but their pages can keep from being built (C90). *)

From Coq Require Import String List NArith Bool.
From Verif Require Import Text Json Base Tree Build Disk SpecScope SpecTree SpecDisk SpecProject SpecSite.
Import ListNotations.

(** All that a build needs, besides pages that are in order: a static and a temporary directory that get in the way neither of each other nor of the
    pages, and room for the output directory and for the metadata. *)
Definition prepared (h : host) (ps : list plugin) (vars : list (text * value)) (cf : config) (dir out : path) (content d : ent) : Prop :=
  ent_distinct d /\ names_at inward (dir ++ [lit "content"]) d /\ names_at plain (dir ++ [lit "static"]) d /\ names_at plain (dir ++ [lit "temp"]) d /\
  (exists statics temps both, present (dir ++ [lit "static"]) d statics /\ present (dir ++ [lit "temp"]) d temps /\
     static_in_order statics /\ static_in_order temps /\ share_dirs statics temps /\ overlay statics temps both /\
     no_conflict h ps vars content both /\ no_overlap h ps vars content cf both) /\
  out <> [] /\ what (parent out) d = KDir /\ (what out d = KNone \/ what out d = KDir) /\
  (lookup (dir ++ [lit "temp"]) d = None \/ ~ above (dir ++ [lit "temp"]) out) /\
  (cf_meta cf = true -> (what (dir ++ [lit "metadata.json"]) d = KNone \/ exists b, what (dir ++ [lit "metadata.json"]) d = KFile b) /\
     ~ above out (dir ++ [lit "metadata.json"])).
