(** Live.v -- [stuart dev] with the channel of events: stuart/src/serve/mod.rs:40-146.  [Server.v] has what one
    event does to the disk and the terminal, [Dev.v] the order of things over sources that are no more than a
    name; here real builds change a real disk while events are on their way. *)

From Coq Require Import String List NArith ZArith Bool.
From Verif Require Import Text Utf8 Json Base Syntax Parse Tree Interp Build Disk Cli Load Dev New Report Main Server.
Import ListNotations.

(** Where [serve] and [build_watcher] are: the watcher is not yet set up (serve/mod.rs:62-73), waiting for an
    event (98), in a build (123), about to empty the channel (143). *)
Inductive stage := Starting | Ready | Working | Emptying.
(** The process, the events on their way to the channel, those in it (serve/mod.rs:72-74), and the stage.  An
    event is its path and whether a build has caused it rather than the user, which the program cannot see. *)
Record live := Live { li_server : server; li_late : list (bool * path); li_queue : list (bool * path); li_stage : stage }.
(** The process when its first build has been made: serve/mod.rs:40-64.  Simplification, here and in
    [live_step]: a build reads and changes the disk at the instant it starts, and its events are on their way
    from then on. *)
Definition live_init (w : world) (lv : level) (manifest output : text) (d : ent) : live :=
  Live (dev_command w lv manifest output [] d) [] [] Starting.
(** The event about [p] starts a build: serve/mod.rs:99-123. *)
Definition starts_build (c : context) (p : path) : bool :=
  match strip_path (cx_dir c) p with Some r => rebuilds r | None => false end.
(** The path is in the project; only what is there is watched.  serve/mod.rs:74. *)
Definition watched (c : context) (p : path) : bool :=
  match strip_path (cx_dir c) p with Some _ => true | None => false end.
(** A build of the project [c] on the disk [d] may cause an event about [p]: scripts may do anything, and
    without scripts a build changes what is at or below the paths it works on.  build.rs:125-158. *)
Definition own_event (m : machine) (c : context) (d : ent) (p : path) : bool :=
  watched c p &&
  match cx_pre c ++ cx_post c with
  | [] => existsb (fun q => match strip_path q p with Some _ => true | None => false end) (build_paths m c d)
  | _ => true
  end.
(** The event of a change by the user at [p]; none before the watcher is set up (serve/mod.rs:72-74). *)
Definition noticed (c : context) (st : stage) (p : path) : list (bool * path) :=
  match st with Starting => [] | _ => if watched c p then [(false, p)] else [] end.
(** The disk has been changed by somebody else while [serve] waits or works: serve/mod.rs:62-146. *)
Definition edit_disk (g : ent -> ent) (s : session) : session :=
  Session (ss_context s) (g (ss_disk s)) (ss_builds s) (ss_shown s) (ss_reloads s).

(** One step of the user, the watcher thread or the program.  serve/mod.rs:62-146.  Simplifications: as for
    [dev_step], every change has one event, and events are delivered in order. *)
Inductive live_step (w : world) (lv : level) (m : machine) : label -> live -> live -> Prop :=
(* the user changes something, at any time *)
| ls_edit s l q st g p :
    live_step w lv m (LEdit p) (Live (Waiting s) l q st) (Live (Waiting (edit_disk g s)) (l ++ noticed (ss_context s) st p) q st)
(* an event arrives in the channel *)
| ls_deliver s e l q st :
    live_step w lv m LOther (Live (Waiting s) (e :: l) q st) (Live (Waiting s) l (q ++ [e]) st)
(* the watcher is set up: serve/mod.rs:72-84 *)
| ls_boot s l q :
    live_step w lv m LOther (Live (Waiting s) l q Starting) (Live (Waiting s) l q Ready)
(* [recv] of an event that is passed over: serve/mod.rs:98-113 *)
| ls_pass s l o p q : starts_build (ss_context s) p = false ->
    live_step w lv m LOther (Live (Waiting s) l ((o, p) :: q) Ready)
      (Live (receive w lv m (Event (fun d => d) (Some p)) s) l q Ready)
(* [recv] of an event that starts a build: serve/mod.rs:115-123 *)
| ls_build s l o p q own : starts_build (ss_context s) p = true ->
    Forall (fun p => own_event m (ss_context s) (ss_disk s) p = true) own ->
    live_step w lv m (LBuild o) (Live (Waiting s) l ((o, p) :: q) Ready)
      (Live (receive w lv m (Event (fun d => d) (Some p)) s) (l ++ map (pair true) own) q Working)
(* the build ends: serve/mod.rs:123-139 *)
| ls_done s l q :
    live_step w lv m LOther (Live (Waiting s) l q Working) (Live (Waiting s) l q Emptying)
(* what is in the channel is thrown away: serve/mod.rs:143 *)
| ls_empty s l q :
    live_step w lv m LOther (Live (Waiting s) l q Emptying) (Live (Waiting s) l [] Ready).
