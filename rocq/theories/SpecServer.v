(** SpecServer.v -- words for whole runs of [stuart dev] (C92). *)

From Coq Require Import String List NArith ZArith Bool.
From Verif Require Import Text Utf8 Json Base Syntax Parse Tree Interp Build Disk Cli Load Dev New Report Main Server.
From Verif Require Import SpecScope SpecTemplate SpecTree SpecDisk SpecProject SpecSite.
Import ListNotations.

(** The same world when [k] builds have been made. *)
Definition later (k : nat) (w : world) : world :=
  World (w_host w) (w_ser w) (w_osenv w) (w_scripts w) (w_toml w) (w_loader w) (w_load_faults w)
    (fun i => w_build_faults w (k + i)%nat)
    (w_clean_faults w) (w_template w) (w_git w) (w_new_fault w) (w_ignore_fault w) (w_cwd w).
(** What can be seen of a process: the disk, whether and how it has ended, the terminal, the messages sent to
    each browser. *)
Definition disk_of (x : server) : ent := match x with Waiting s => ss_disk s | Over d _ _ => d end.
Definition ended (x : server) : option exit := match x with Waiting _ => None | Over _ e _ => Some e end.
Definition shown_of (x : server) : list note := match x with Waiting s => ss_shown s | Over _ _ l => l end.
Definition reloads_of (x : server) : nat := match x with Waiting s => ss_reloads s | Over _ _ _ => 0 end.
(** A line of the log, which is not written when the program is to be quiet. *)
Definition line (lv : level) (verb : text) : list note := match lv with Quiet => [] | _ => [Log verb] end.
(** An error is reported. *)
Definition reported (l : list note) : bool := existsb (fun i => match i with Report _ => true | _ => false end) l.

(** The project in [dir] can be built with the plugins [ps] by [stuart dev]: no scripts, no metadata, contents and
    static files in order ([SpecSite.v]), and the output directory [out] can be made. *)
Definition ready (w : world) (dir : path) (r : raw_config) (ps : list plugin) (out : path) (content statics : ent) (d : ent) : Prop :=
  what (dir ++ [lit "scripts"]) d = KNone /\ cf_meta (to_config r) = false /\ flat_map pl_parsers ps = [] /\
  lookup (dir ++ [lit "content"]) d = Some content /\
  (lookup (dir ++ [lit "static"]) d = Some statics \/ (lookup (dir ++ [lit "static"]) d = None /\ statics = EDir [])) /\
  what (dir ++ [lit "temp"]) d = KNone /\ ent_distinct d /\
  names_at inward (dir ++ [lit "content"]) d /\ names_at plain (dir ++ [lit "static"]) d /\
  out <> [] /\ what (parent out) d = KDir /\ (what out d = KNone \/ what out d = KDir) /\
  let vars := page_vars (w_osenv w) (lit "development") in
  site_in_order (w_host w) ps vars content /\ static_in_order statics /\
  no_conflict (w_host w) ps vars content statics /\ no_overlap (w_host w) ps vars content (to_config r) statics.
(** The files below [out] are exactly those of the site. *)
Definition published (w : world) (r : raw_config) (ps : list plugin) (out : path) (content statics : ent) (d : ent) : Prop :=
  forall q o, what (out ++ q) d = KFile o <->
    file_at (w_host w) ps (page_vars (w_osenv w) (lit "development")) content (to_config r) statics q o.
