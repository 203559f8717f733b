(** SpecHistory.v -- the commands that were run in a project before a build (C102). *)

From Coq Require Import String List NArith Bool.
From Verif Require Import Text Json Base Tree Build Disk Cli Load Dev New Report Main Server Live.
From Verif Require Import SpecTree SpecDisk SpecProject SpecMain SpecServer SpecLive SpecRecover.
Import ListNotations.

(** The program run another time in the same directory: by another user with another environment, at another time, with other failures of the disk, of git and of
    the network.  (Removing a directory [temp] that is not there does not fail.) *)
Definition same_seat (w w' : world) : Prop :=
  w_toml w' = w_toml w /\ w_loader w' = w_loader w /\ w_cwd w' = w_cwd w /\ forall i, fl_temp (w_build_faults w' i) = None.
(** The commands for a project that is there. *)
Inductive chore : command -> Prop :=
| ch_build : chore (CmdBuild (lit "stuart.toml") (lit "dist"))
| ch_bench n : chore (CmdBench n)
| ch_clean : chore CmdClean.
(** Commands that were run in a project one after the other, with any results, and sessions of [stuart dev] that were ended at any time. *)
Inductive past (w : world) : ent -> ent -> Prop :=
| hy_none d : past w d d
| hy_command d w' lv k d1 e items d2 : same_seat w w' -> chore k -> main w' lv k d = (d1, e, items) -> past w d1 d2 -> past w d d2
| hy_dev d w' lv tr x d2 : same_seat w w' -> live_run w' lv (dev_machine w' (lit "stuart.toml") (lit "dist")) tr (live_init w' lv (lit "stuart.toml") (lit "dist") d) x ->
    untouched_run tr -> past w (disk_of (li_server x)) d2 -> past w d d2.
(** Two disks that differ at most in what is generated. *)
Definition same_work (dir : path) (d d' : ent) : Prop := forall q, ~ generated dir q -> what q d' = what q d.
(** The dependencies [deps] are loaded from files of the project, and loading them gives [ps] wherever these files are the same. *)
Definition loads_alike (w : world) (deps : list (text * text)) (d : ent) (ps : list plugin) : Prop :=
  forall d' fs, same_work (w_cwd w) d d' -> loads_all (lo_js (w_loader w)) (load_from_source (w_loader w) fs (w_cwd w)) deps d' d' ps.
(** Nothing that a build would not write is where generated things are put. *)
Definition nothing_stale (c : context) (d : ent) : Prop :=
  what (cx_dir c ++ [lit "_build"]) d = KNone /\ (cf_meta (st_config (cx_stuart c)) = false -> what (cx_dir c ++ [lit "metadata.json"]) d = KNone).
(** Two disks with the same project that differ in what was generated at most. *)
Definition same_copy (c : context) (d d' : ent) : Prop :=
  (forall n, In n [lit "content"; lit "static"] -> lookup (cx_dir c ++ [n]) d' = lookup (cx_dir c ++ [n]) d) /\
  same_work (cx_dir c) d d' /\ nothing_stale c d'.
