(** StateCli.v -- builds of projects, [stuart bench] and [stuart dev] with plugins that keep state: [cli_build]
    and [bench] of Cli.v and the server of Server.v again, with the builder of State.v. *)

From Coq Require Import String List NArith ZArith Bool.
From Verif Require Import Text Utf8 Json Base Syntax Parse Tree Interp Build Disk Cli Load Dev New Report Main Server State.
Import ListNotations.

Section StateCli.
  Context {X : Type}.
  Variable beh : State.behaviour X.

  (** [build_and_merge], build.rs:138-149; merging calls no plugin. *)
  Definition sbuild_and_merge (m : machine) (c : context) (d : ent) : st X (stuart * res error unit) :=
    bnd (sbuild beh (m_host m) (m_osenv m) (cx_mode c) (source_at (cx_dir c ++ [lit "content"]) d) (cx_stuart c)) (fun r =>
    ret match r with
        | (st1, Ok _) => merge_dirs (m_host m) (cx_dir c) [lit "static"; lit "temp"] d st1
        | (st1, r) => (st1, r)
        end).
  (** [StuartContext::build], build.rs:124-191 (without the timing); saving and scripts call no plugin. *)
  Definition scli_build (m : machine) (f : faults) (c : context) (d : ent) : st X (context * ent * cli_result) :=
    match run_scripts (m_script m) (cx_pre c) d with
    | (d1, Some e) => ret (c, d1, CErr e)
    | (d1, None) =>
        bnd (sbuild_and_merge m c d1) (fun r =>
        ret match r with
        | (st1, Ok _) =>
            let d2 := remove_temp (fl_temp f) (cx_dir c ++ [lit "temp"]) d1 in
            match save (fl_save f) st1 (join_path (cx_dir c) (cx_output c)) d2 with
            | (d3, Ok _) =>
                match (if cf_meta (st_config st1)
                       then save_metadata (m_ser m) (fl_meta f) st1 (cx_dir c ++ [lit "metadata.json"]) d3
                       else (d3, Ok tt)) with
                | (d4, Ok _) =>
                    match run_scripts (m_script m) (cx_post c) d4 with
                    | (d5, None) => (set_stuart st1 c, d5, COk)
                    | (d5, Some e) => (set_stuart st1 c, d5, CErr e)
                    end
                | (d4, r) => (set_stuart st1 c, d4, of_res r)
                end
            | (d3, r) => (set_stuart st1 c, d3, of_res r)
            end
        | (st1, r) => (set_stuart st1 c, d1, of_res r)
        end)
    end.
  (** The loop of [bench], main.rs:178-187: one context and one set of plugins. *)
  Fixpoint sbench_loop (m : machine) (fs : nat -> faults) (k n : nat) (c : context) (d : ent) : st X (ent * cli_result) :=
    match n with
    | O => ret (d, COk)
    | S n' => bnd (scli_build m (fs k) c d) (fun r =>
              match r with
              | (c', d', COk) => sbench_loop m fs (S k) n' c' d'
              | (_, d', r) => ret (d', r)
              end)
    end.
  (** [bench], main.rs:160-201. *)
  Definition sbench (m : machine) (fs : nat -> faults) (iters : text) (r : raw_config) (ps : list plugin) (dir : path) (d : ent)
    : st X (ent * cli_result) :=
    match parse_usize iters with
    | None => ret (d, CErr CE_Msg)
    | Some n => sbench_loop m fs 0 (N.to_nat n) (init r ps dir (lit "dist") (lit "benchmark") d) d
    end.

  (** What [StuartContext::build] writes, build.rs:124-191. *)
  Definition sbuild_says (m : machine) (f : faults) (c : context) (d : ent) (x : X) : list note :=
    scripts_say (m_script m) (cx_pre c) d ++
    match run_scripts (m_script m) (cx_pre c) d with
    | (d1, None) =>
        Log (lit "Building") ::
        match snd (sbuild_and_merge m c d1 x) with
        | (st1, Ok _) =>
            let d2 := remove_temp (fl_temp f) (cx_dir c ++ [lit "temp"]) d1 in
            match save (fl_save f) st1 (join_path (cx_dir c) (cx_output c)) d2 with
            | (d3, Ok _) =>
                (if cf_meta (st_config st1) then [Log (lit "Exporting")] else []) ++
                match (if cf_meta (st_config st1)
                       then save_metadata (m_ser m) (fl_meta f) st1 (cx_dir c ++ [lit "metadata.json"]) d3
                       else (d3, Ok tt)) with
                | (d4, Ok _) =>
                    scripts_say (m_script m) (cx_post c) d4 ++
                    match run_scripts (m_script m) (cx_post c) d4 with
                    | (_, None) => [Log (lit "Finished")]
                    | _ => []
                    end
                | _ => []
                end
            | _ => []
            end
        | _ => []
        end
    | _ => []
    end.
  (** [build], main.rs:145-153. *)
  Definition sbuild_command (w : world) (manifest output : text) (d : ent) : st X (ent * outcome * list note) :=
    let mode := lit "production" in
    match start w manifest output mode d with
    | (d1, SOk c, said) => fun x =>
        let m := machine_of w (join_path (w_cwd w) manifest) output mode in
        match scli_build m (w_build_faults w 0) c d1 x with
        | (x', (_, d2, r)) => (x', (d2, outcome_of r, said ++ sbuild_says m (w_build_faults w 0) c d1 x))
        end
    | (d1, s, said) => ret (d1, outcome_at_start s, said)
    end.
  (** A build of [stuart dev], serve/mod.rs:62-64 and 123-139. *)
  Definition sdev_build (w : world) (lv : level) (m : machine) (tell : bool) (s : session) : st X server := fun x =>
    let f := w_build_faults w (ss_builds s) in
    let shown := ss_shown s ++ filter (let_through lv) (sbuild_says m f (ss_context s) (ss_disk s) x) in
    match scli_build m f (ss_context s) (ss_disk s) x with
    | (x', (c, d, COk)) =>
        (x', Waiting (Session c d (S (ss_builds s)) shown (if tell then S (ss_reloads s) else ss_reloads s)))
    | (x', (c, d, CErr e)) =>
        (x', Waiting (Session c d (S (ss_builds s)) (dev_report (main_error_of e) shown) (ss_reloads s)))
    | (x', (_, d, CPanic _)) => (x', Over d (Exit 101) shown)
    | (x', (_, d, CFuel)) => (x', Over d Runs shown)
    end.
  (** The loop over events, serve/mod.rs:97-145; both [unwrap]s of line 99 may panic. *)
  Definition sreceive (w : world) (lv : level) (m : machine) (ev : event) (s : session) : st X server :=
    let d := ev_edit ev (ss_disk s) in
    match (match ev_path ev with Some p => strip_path (cx_dir (ss_context s)) p | None => None end) with
    | None => ret (Over d (Exit 101) (ss_shown s))
    | Some p =>
        if ignored_event p then ret (Waiting (Session (ss_context s) d (ss_builds s) (ss_shown s) (ss_reloads s)))
        else
          let s' := Session (ss_context s) d (ss_builds s) (detected lv (ss_shown s)) (ss_reloads s) in
          if last_is (lit "stuart.toml") p then ret (Waiting s') else sdev_build w lv m true s'
    end.
  (** serve/mod.rs:97-145. *)
  Fixpoint swatch (w : world) (lv : level) (m : machine) (evs : list event) (y : server) : st X server :=
    match y, evs with
    | Waiting s, ev :: evs' => bnd (sreceive w lv m ev s) (swatch w lv m evs')
    | _, _ => ret y
    end.
  (** [serve], serve/mod.rs:40-87, with [main], main.rs:113-142.  Simplification: what the modules do while
      they are loaded is in the initial state. *)
  Definition sdev_command (w : world) (lv : level) (manifest output : text) (evs : list event) (d : ent) : st X server :=
    let mode := lit "development" in
    match start w manifest output mode d with
    | (d1, SOk c, said) =>
        let m := machine_of w (join_path (w_cwd w) manifest) output mode in
        bnd (sdev_build w lv m false (Session c d1 0 (filter (let_through lv) (said ++ [Log (lit "Started")])) 0))
            (swatch w lv m evs)
    | (d1, SErr e, said) => ret (Over d1 (Exit 1) (dev_report e (filter (let_through lv) said)))
    | (d1, SPanic _, said) => ret (Over d1 (Exit 101) (filter (let_through lv) said))
    end.
End StateCli.
