(** SpecLive.v -- executions of [stuart dev] on a real disk (C50, C51). *)

From Coq Require Import String List NArith ZArith Bool.
From Verif Require Import Text Utf8 Json Base Syntax Parse Tree Interp Build Disk Cli Load Dev New Report Main Server Live.
From Verif Require Import SpecScope SpecTree SpecDisk SpecProject SpecDev SpecServer.
Import ListNotations.

(** An execution: its steps, each with the state it was made in. *)
Inductive live_run (w : world) (lv : level) (m : machine) : list (label * live) -> live -> live -> Prop :=
| lr_nil x : live_run w lv m [] x x
| lr_cons a x y tr z : live_step w lv m a x y -> live_run w lv m tr y z -> live_run w lv m ((a, x) :: tr) x z.
(** Everything that has happened has been dealt with. *)
Definition at_rest (x : live) : Prop := li_stage x = Ready /\ li_late x = [] /\ li_queue x = [].
(** Nothing is changed by the user. *)
Definition untouched_run (tr : list (label * live)) : Prop := forall p x, ~ In (LEdit p, x) tr.
(** The steps of an execution. *)
Definition steps (tr : list (label * live)) : list label := map fst tr.
(** What [stuart dev] does in the project of the manifest [manifest] of the command line. *)
Definition dev_machine (w : world) (manifest output : text) : machine :=
  machine_of w (join_path (w_cwd w) manifest) output (lit "development").
(** The project has no scripts, no metadata, and its output directory is [dist]; names of files in [content],
    [static] and [temp] stay inside. *)
Definition ordinary (s : session) : Prop :=
  cx_pre (ss_context s) = [] /\ cx_post (ss_context s) = [] /\ cf_meta (st_config (cx_stuart (ss_context s))) = false /\
  output_dir (ss_context s) = cx_dir (ss_context s) ++ [lit "dist"] /\ inward_project (ss_context s) (ss_disk s).
Definition ordinary_live (x : live) : Prop := forall s, li_server x = Waiting s -> ordinary s.
(** A step that is not a change by the user, in an ordinary project. *)
Definition goes_on (w : world) (lv : level) (m : machine) (x y : live) : Prop :=
  ordinary_live x /\ exists a, no_edit a /\ live_step w lv m a x y.
(** An event that starts a build in the project in [dir] is on its way or in the channel. *)
Definition awaits (dir : path) (x : live) : Prop := exists o p, In (o, dir ++ p) (li_late x ++ li_queue x) /\ ~ passed p.
(** If a build runs when the execution starts: when that build is over and the channel is emptied, such an event is
    still on its way. *)
Definition not_lost (dir : path) (tr : list (label * live)) : Prop := forall before a y rest,
  tr = before ++ (a, y) :: rest -> (forall b z, In (b, z) before -> li_stage z <> Ready) -> li_stage y = Emptying ->
  exists o p, In (o, dir ++ p) (li_late y) /\ ~ passed p.
