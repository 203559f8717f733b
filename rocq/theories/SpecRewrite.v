(** SpecRewrite.v -- projects that a run of stuart build finds ready (C91, C101, C107, C108, C109). *)

From Coq Require Import String List NArith ZArith Bool.
From Verif Require Import Text Utf8 Json Base Syntax Parse Tree Interp Build Disk Cli Load Dev New Report Main.
From Verif Require Import SpecScope SpecTemplate SpecTree SpecDisk SpecProject SpecChars SpecSite SpecNew SpecUtf8 SpecMain.
Import ListNotations.

(** The disk [d] holds a project with a manifest that says [r], plugins [ps] that load, no scripts,
    content and static files, and room for the output directory [out]. *)
Definition command_ready (w : world) (manifest output : text) (dir : path) (name : text) (out : path) (r : raw_config) (ps : list plugin) (d content statics : ent) : Prop :=
  untroubled w /\ meant (w_cwd w) manifest (dir ++ [name]) /\ meant dir output out /\ out <> [] /\
  cf_meta (to_config r) = false /\ flat_map pl_parsers ps = [] /\ static_in_order statics /\
  exists deps d0, manifest_says w (dir ++ [name]) d r deps /\ loads_all (lo_js (w_loader w)) (load_from_source (w_loader w) (w_load_faults w) dir) deps d d0 ps /\
    what (dir ++ [lit "scripts"]) d0 = KNone /\ lookup (dir ++ [lit "content"]) d0 = Some content /\
    (lookup (dir ++ [lit "static"]) d0 = Some statics \/ (lookup (dir ++ [lit "static"]) d0 = None /\ statics = EDir [])) /\
    what (dir ++ [lit "temp"]) d0 = KNone /\ ent_distinct d0 /\
    names_at inward (dir ++ [lit "content"]) d0 /\ names_at plain (dir ++ [lit "static"]) d0 /\
    what (parent out) d0 = KDir /\ (what out d0 = KNone \/ what out d0 = KDir).
(** The site is in order, also together with the static files. *)
Definition site_ready (h : host) (ps : list plugin) (vars : list (text * value)) (cf : config) (content statics : ent) : Prop :=
  site_in_order h ps vars content /\ no_conflict h ps vars content statics /\ no_overlap h ps vars content cf statics.
(** [stuart build] exits with 0 on both disks and leaves the same files in the output directory. *)
Definition built_alike (w : world) (lv : level) (manifest output : text) (out : path) (d d' : ent) : Prop :=
  exists d1 items d2 items', main w lv (CmdBuild manifest output) d = (d1, Exit 0, items) /\ main w lv (CmdBuild manifest output) d' = (d2, Exit 0, items') /\
    forall q o, what (out ++ q) d1 = KFile o <-> what (out ++ q) d2 = KFile o.
