(** Server.v -- [stuart dev] as a whole run of the program: stuart/src/serve/mod.rs:40-146 with the builds,
    the disk and the terminal.  ([Dev.v] has the order of events, [Serve.v] the answers to requests.) *)

From Coq Require Import String List NArith ZArith Bool.
From Verif Require Import Text Utf8 Json Base Syntax Parse Tree Interp Build Disk Cli Load Dev New Report Main.
Import ListNotations.

(** An event taken from the channel, with what other programs have done to the disk since the last one was
    dealt with; the path is absolute.  serve/mod.rs:98-99.  Simplification: nothing else changes the disk
    during a build. *)
Record event := Event { ev_edit : ent -> ent; ev_path : option path }.
(** The variables of [serve] and [build_watcher], serve/mod.rs:40-146: the context, the disk, the number of
    builds made, what was written to the terminal, the number of messages [reload] sent to each browser. *)
Record session := Session {
  ss_context : context; ss_disk : ent; ss_builds : nat; ss_shown : list note; ss_reloads : nat
}.
(** The process waits for events (serve/mod.rs:98), or has ended.  serve/mod.rs:40-146. *)
Inductive server := Waiting (s : session) | Over (d : ent) (e : exit) (shown : list note).

(** [error_handler], serve/mod.rs:203-209. *)
Definition dev_report (e : main_error) (shown : list note) : list note :=
  shown ++ (if existsb is_log shown then [Blank] else []) ++ [Report e].
(** A build, serve/mod.rs:62-64 and 123-139; [tell] is false for the first, when there are no browsers. *)
Definition dev_build (w : world) (lv : level) (m : machine) (tell : bool) (s : session) : server :=
  let f := w_build_faults w (ss_builds s) in
  let shown := ss_shown s ++ filter (let_through lv) (build_says m f (ss_context s) (ss_disk s)) in
  match cli_build m f (ss_context s) (ss_disk s) with
  | (c, d, COk) => Waiting (Session c d (S (ss_builds s)) shown (if tell then S (ss_reloads s) else ss_reloads s))
  | (c, d, CErr e) => Waiting (Session c d (S (ss_builds s)) (dev_report (main_error_of e) shown) (ss_reloads s))
  | (_, d, CPanic _) => Over d (Exit 101) shown
  | (_, d, CFuel) => Over d Runs shown
  end.
(** [log!("Detected", ..)] after an empty line, serve/mod.rs:105-121. *)
Definition detected (lv : level) (shown : list note) : list note :=
  shown ++ Blank :: filter (let_through lv) [Log (lit "Detected")].
(** The loop over events, serve/mod.rs:97-145; both [unwrap]s of line 99 may panic. *)
Definition receive (w : world) (lv : level) (m : machine) (ev : event) (s : session) : server :=
  let d := ev_edit ev (ss_disk s) in
  match (match ev_path ev with Some p => strip_path (cx_dir (ss_context s)) p | None => None end) with
  | None => Over d (Exit 101) (ss_shown s)
  | Some p =>
      if ignored_event p then Waiting (Session (ss_context s) d (ss_builds s) (ss_shown s) (ss_reloads s))
      else
        let s' := Session (ss_context s) d (ss_builds s) (detected lv (ss_shown s)) (ss_reloads s) in
        if last_is (lit "stuart.toml") p then Waiting s' else dev_build w lv m true s'
  end.
(** serve/mod.rs:97-145. *)
Fixpoint watch (w : world) (lv : level) (m : machine) (evs : list event) (x : server) : server :=
  match x, evs with
  | Waiting s, ev :: evs' => watch w lv m evs' (receive w lv m ev s)
  | _, _ => x
  end.
(** [serve], serve/mod.rs:40-87, with [main], main.rs:113-142: the process when it has dealt with the events
    [evs]. *)
Definition dev_command (w : world) (lv : level) (manifest output : text) (evs : list event) (d : ent) : server :=
  let mode := lit "development" in
  match start w manifest output mode d with
  | (d1, SOk c, said) =>
      let m := machine_of w (join_path (w_cwd w) manifest) output mode in
      watch w lv m evs
        (dev_build w lv m false
           (Session c d1 0 (filter (let_through lv) (said ++ [Log (lit "Started")])) 0))
  | (d1, SErr e, said) => Over d1 (Exit 1) (dev_report e (filter (let_through lv) said))
  | (d1, SPanic _, said) => Over d1 (Exit 101) (filter (let_through lv) said)
  end.
