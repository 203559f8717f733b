(** Main.v -- the command line program as a whole: stuart/src/main.rs, with the reading of the manifest
    (build.rs:41-121) and what is written to the terminal (logger/mod.rs, logger/progress.rs).
    [stuart dev], which does not end, is in [Dev.v]. *)

From Coq Require Import String List NArith ZArith Bool.
From Verif Require Import Text Utf8 Json Base Syntax Parse Tree Interp Build Disk Cli Load Dev New Report.
Import ListNotations.

(** Errors as main.rs:134-141 meets them.  The output of a script that failed is not kept. *)
Inductive main_error :=
| ME (e : error)
| ME_Script (name : text) (r : script_result)
| ME_Msg (t : text)
| ME_Manifest (t : traceback text).
(** Conversion of the errors of [StuartContext::build] and of [bench], build.rs:124-191 and
    main.rs:166-170. *)
Definition main_error_of (e : cli_error) : main_error :=
  match e with
  | CE e => ME e
  | CE_Script n r => ME_Script n r
  | CE_Msg => ME_Msg (lit "invalid value for iterations")
  end.

(** What is written to the terminal: a line of the log (logger/mod.rs:58-85; only the verb is kept), an
    empty line ([println!()]), a progress bar (logger/progress.rs:28-53), the report of an error
    (error.rs:38-50), the report of a plugin source that failed (plugins/mod.rs:92-96; the message is not
    kept). *)
Inductive note :=
| Log (verb : text)
| Blank
| Bar (current total : N)
| Report (e : main_error)
| PluginReport (name src : text).
(** [LogLevel], logger/mod.rs:24-33. *)
Inductive level := Quiet | Normal | Verbose.
(** What the level lets through, logger/mod.rs:65-66; only [log!] looks at it. *)
Definition let_through (lv : level) (i : note) : bool :=
  match i, lv with Log _, Quiet => false | _, _ => true end.
(** [has_logged], logger/mod.rs:51-53 and 81. *)
Definition is_log (i : note) : bool := match i with Log _ => true | _ => false end.

(** The result of [config::load], config/mod.rs:44-46: the table of dependencies is in the order of the
    hash map; an error has a message and perhaps a place, counted from 0. *)
Inductive toml :=
| TomlOk (r : raw_config) (deps : list (text * text))
| TomlErr (at_ : option (N * N)) (msg : text).

(** The parts of the world the program meets: see [machine], [loader], [git]; [w_scripts] are the scripts,
    started with additional environment variables (scripts.rs:115-117).  Arguments of main.rs:115-142. *)
Record world := World {
  w_host : host; w_ser : value -> bytes; w_osenv : list (text * text);
  w_scripts : list (text * text) -> script_oracle;
  w_toml : text -> toml;
  w_loader : loader; w_load_faults : text -> text -> option fault;
  w_build_faults : nat -> faults;
  w_clean_faults : nat -> option (option ent);
  w_template : ent; w_git : git; w_new_fault : option fault; w_ignore_fault : option fault;
  w_cwd : path
}.

(** [Path::join] written out, build.rs:84-103. *)
Definition join_text (dir : path) (arg : text) : text :=
  if starts_with [c_slash] arg then arg
  else match dir with [] => show_abs [] ++ arg | _ => show_abs dir ++ [c_slash] ++ arg end.
(** The variables given to scripts, build.rs:68-106. *)
Definition script_env (manifest : path) (output mode : text) : list (text * text) :=
  let dir := removelast manifest in
  [(lit "STUART_MANIFEST_PATH", show_abs manifest);
   (lit "STUART_MANIFEST_DIR", show_abs dir);
   (lit "STUART_TEMP_DIR", join_text dir (lit "temp"));
   (lit "STUART_OUT_DIR", join_text dir output);
   (lit "STUART_ENV", mode)].
(** What a build consults, build.rs:41-191. *)
Definition machine_of (w : world) (manifest : path) (output mode : text) : machine :=
  Machine (w_host w) (w_ser w) (w_osenv w) (w_scripts w (script_env manifest output mode)).

(** The log of [load_from_source], plugins/mod.rs:129,136,152,163,176,184. *)
Definition source_log (L : loader) (fs : text -> text -> option fault) (root : path) (name src : text) (d : ent)
  : list note :=
  let source := join_path root src in
  let store := join_path root (lit "_build/plugins/" ++ name) in
  match lookup source d, lookup (source ++ [lit "Cargo.toml"]) d with
  | Some (EFile _), _ => [Log (lit "Loading")]
  | _, Some _ => [Log (lit "Compiling")]
  | _, None =>
      if lo_remote L src then
        Log (match lookup store d with None => lit "Cloning" | Some _ => lit "Pulling" end) ::
        match fetch L (fs name src) root store src d with
        | (d2, true) =>
            match lookup store d2 with
            | Some e => match find_project L name store e with Some _ => [Log (lit "Compiling")] | None => [] end
            | None => []
            end
        | _ => []
        end
      else match lo_get L src with Some _ => [Log (lit "Downloading")] | None => [] end
  end.
(** What the loop over the sources of one plugin writes, plugins/mod.rs:58-102: only the first error is
    reported; [seen] tells whether there was one. *)
Fixpoint sources_say (js : bool) (ld : load_oracle) (lg : text -> text -> ent -> list note) (name : text)
    (srcs : list text) (seen : bool) (d : ent) : list note :=
  match srcs with
  | [] => []
  | s :: srcs' =>
      if skip_source js s then Log (lit "Skipping") :: sources_say js ld lg name srcs' seen d
      else lg name s d ++
           match ld name s d with
           | (d', LErr) => (if seen then [] else [PluginReport name s]) ++ sources_say js ld lg name srcs' true d'
           | _ => []
           end
  end.
(** What [plugins::load] writes before its last line, plugins/mod.rs:57-103. *)
Fixpoint plugins_say (js : bool) (ld : load_oracle) (lg : text -> text -> ent -> list note)
    (deps : list (text * text)) (d : ent) : list note :=
  match deps with
  | [] => []
  | (name, src) :: deps' =>
      let (h, r) := split_char 59%N src in
      sources_say js ld lg name (h :: r) false d ++
      match load_sources js ld name (h :: r) d with
      | (d1, LOk _) => plugins_say js ld lg deps' d1
      | _ => []
      end
  end.

(** Outcome of [StuartContext::init], build.rs:41-121. *)
Inductive started := SOk (c : context) | SErr (e : main_error) | SPanic (p : panic).
(** [StuartContext::init], build.rs:41-121.  The message of the system after [failed to read manifest] is
    left out; [canonicalize] is as in [source_at]. *)
Definition start (w : world) (manifest output mode : text) (d : ent) : ent * started * list note :=
  let p := join_path (w_cwd w) manifest in
  match lookup p d with
  | None => (d, SErr (ME_Msg (lit "invalid manifest path")), [])
  | Some e =>
      match (match e with EFile b => from_utf8 b | _ => None end) with
      | None => (d, SErr (ME_Msg (lit "failed to read manifest:")), [])
      | Some t =>
          match w_toml w t with
          | TomlErr (Some (l, c)) m => (d, SErr (ME_Manifest (TB p (l + 1) (c + 1) m)), [])
          | TomlErr None m => (d, SErr (ME_Msg (lit "failed to parse manifest:" ++ [c_lf] ++ lit "  " ++ m)), [])
          | TomlOk r deps =>
              let dir := removelast p in
              let L := w_loader w in
              let ld := load_from_source L (w_load_faults w) dir in
              let said := plugins_say (lo_js L) ld (source_log L (w_load_faults w) dir) deps d in
              match load_plugins (lo_js L) ld deps d with
              | (d1, LOk ps) =>
                  (d1, SOk (init r ps dir output mode d1),
                   said ++ match ps with [] => [] | _ => [Log (lit "Loaded")] end)
              | (d1, LErr) => (d1, SErr (ME_Msg (lit "Plugins failed to load")), said)
              | (d1, LPanic) => (d1, SPanic Pn_plugin, said)
              end
          end
      end
  end.

(** What [Scripts::execute] writes, scripts.rs:96-102. *)
Fixpoint scripts_say (sc : script_oracle) (l : list text) (d : ent) : list note :=
  match l with
  | [] => []
  | n :: l' => Log (lit "Executing") :: match sc n d with (d', ScriptOk) => scripts_say sc l' d' | _ => [] end
  end.
(** What [StuartContext::build] writes, build.rs:124-191. *)
Definition build_says (m : machine) (f : faults) (c : context) (d : ent) : list note :=
  scripts_say (m_script m) (cx_pre c) d ++
  match run_scripts (m_script m) (cx_pre c) d with
  | (d1, None) =>
      Log (lit "Building") ::
      match build_and_merge m c d1 with
      | (st1, Ok _) =>
          let d2 := remove_temp (fl_temp f) (cx_dir c ++ [lit "temp"]) d1 in
          match save (fl_save f) st1 (join_path (cx_dir c) (cx_output c)) d2 with
          | (d3, Ok _) =>
              (if cf_meta (st_config st1) then [Log (lit "Exporting")] else []) ++
              match (if cf_meta (st_config st1)
                     then save_metadata (m_ser m) (fl_meta f) st1 (cx_dir c ++ [lit "metadata.json"]) d3
                     else (d3, Ok tt)) with
              | (d4, Ok _) =>
                  scripts_say (m_script m) (cx_post c) d4 ++
                  match run_scripts (m_script m) (cx_post c) d4 with
                  | (_, None) => [Log (lit "Finished")]
                  | _ => []
                  end
              | _ => []
              end
          | _ => []
          end
      | _ => []
      end
  | _ => []
  end.

(** How a command ends. main.rs:125-142. *)
Inductive outcome := Done | Failed (e : main_error) | Crashed (p : panic) | Endless.
(** build.rs:124-191. *)
Definition outcome_of (r : cli_result) : outcome :=
  match r with COk => Done | CErr e => Failed (main_error_of e) | CPanic p => Crashed p | CFuel => Endless end.
(** build.rs:41-121. *)
Definition outcome_at_start (s : started) : outcome :=
  match s with SOk _ => Done | SErr e => Failed e | SPanic p => Crashed p end.

(** [build], main.rs:145-153. *)
Definition build_command (w : world) (manifest output : text) (d : ent) : ent * outcome * list note :=
  let mode := lit "production" in
  match start w manifest output mode d with
  | (d1, SOk c, said) =>
      let m := machine_of w (join_path (w_cwd w) manifest) output mode in
      match cli_build m (w_build_faults w 0) c d1 with
      | (_, d2, r) => (d2, outcome_of r, said ++ build_says m (w_build_faults w 0) c d1)
      end
  | (d1, s, said) => (d1, outcome_at_start s, said)
  end.

(** The progress bars of [bench], main.rs:174-187, logger/progress.rs:59-71; the log is switched off. *)
Fixpoint bench_says (m : machine) (fs : nat -> faults) (k n : nat) (total : N) (c : context) (d : ent) : list note :=
  match n with
  | O => [Blank] ++ map Log [lit "Total:"; lit "Build:"; lit "Scripts:"; lit "Filesystem:"]
  | S n' =>
      match cli_build m (fs k) c d with
      | (c', d', COk) =>
          [Bar (N.of_nat (S k)) total] ++ (if N.eqb (N.of_nat (S k)) total then [Blank] else [])
          ++ bench_says m fs (S k) n' total c' d'
      | _ => []
      end
  end.
(** [bench], main.rs:156-201. *)
Definition bench_command (w : world) (iters : text) (d : ent) : ent * outcome * list note :=
  let manifest := lit "stuart.toml" in let output := lit "dist" in let mode := lit "benchmark" in
  match start w manifest output mode d with
  | (d1, SOk c, said) =>
      match parse_usize iters with
      | None => (d1, outcome_of (CErr CE_Msg), said)
      | Some n =>
          let m := machine_of w (join_path (w_cwd w) manifest) output mode in
          match bench_loop m (w_build_faults w) 0 (N.to_nat n) c d1 with
          | (d2, r) =>
              (d2, outcome_of r,
               said ++ [Bar 0 n] ++ bench_says m (w_build_faults w) 0 (N.to_nat n) n c d1)
          end
      end
  | (d1, s, said) => (d1, outcome_at_start s, said)
  end.

(** [clean], main.rs:203-221, with its messages. *)
Definition clean_command (w : world) (d : ent) : ent * outcome * list note :=
  let dir := w_cwd w in
  match clean (w_clean_faults w) dir d with
  | (d', true) => (d', Done, [])
  | (d', false) =>
      (d', Failed (ME_Msg
        (match lookup (dir ++ [lit "stuart.toml"]) d with
         | None => lit "current working directory is not a Stuart project"
         | Some _ =>
             if snd (clean_one rmtree (w_clean_faults w 0) (dir ++ [lit "dist"]) d) then
               if snd (clean_one rmtree (w_clean_faults w 1) (dir ++ [lit "_build"])
                        (fst (clean_one rmtree (w_clean_faults w 0) (dir ++ [lit "dist"]) d)))
               then lit "failed to remove metadata file" else lit "failed to remove build directory"
             else lit "failed to remove output directory"
         end)), [])
  end.
(** [new], new.rs:19-49. *)
Definition new_command (w : world) (name : text) (no_git : bool) (d : ent) : ent * outcome * list note :=
  match new_site (w_template w) (w_git w) no_git (w_new_fault w) (w_ignore_fault w) (w_cwd w) name d with
  | (d', Ok _) => (d', Done, [Log (lit "Created")])
  | (d', Err e) => (d', Failed (ME e), [])
  | (d', Panic p) => (d', Crashed p, [])
  | (d', OutOfFuel) => (d', Endless, [])
  end.

(** The subcommands with their options, main.rs:46-111; [dev] is left out. *)
Inductive command :=
| CmdBuild (manifest output : text)
| CmdNew (name : text) (no_git : bool)
| CmdBench (iters : text)
| CmdClean.
(** The dispatch, main.rs:125-132. *)
Definition perform (w : world) (c : command) (d : ent) : ent * outcome * list note :=
  match c with
  | CmdBuild m o => build_command w m o d
  | CmdNew n g => new_command w n g d
  | CmdBench i => bench_command w i d
  | CmdClean => clean_command w d
  end.
(** The exit status; a panic ends the process with 101. main.rs:134-141. *)
Inductive exit := Exit (n : N) | Runs.
(** [main], main.rs:113-142: the disk afterwards, the exit status, what was written. *)
Definition main (w : world) (lv : level) (c : command) (d : ent) : ent * exit * list note :=
  match perform w c d with
  | (d', o, said) =>
      let shown := filter (let_through lv) said in
      match o with
      | Done => (d', Exit 0, shown)
      | Failed e => (d', Exit 1, shown ++ (if existsb is_log shown then [Blank] else []) ++ [Report e])
      | Crashed _ => (d', Exit 101, shown)
      | Endless => (d', Runs, shown)
      end
  end.

(** The report of an error of the program: [print], error.rs:38-50, [ScriptError], error.rs:349-380
    (without the output of the script), strings, error.rs:383-393. *)
Definition main_printed (s : screen) (d : ent) (e : main_error) : res unit text :=
  match e with
  | ME e => printed s d e
  | ME_Script n (ScriptFailure z) =>
      Ok (lit "error: " ++ unlines [quoted n ++ lit " failed with exit code " ++ show_Z z])
  | ME_Script n _ => Ok (lit "error: " ++ unlines [lit "could not execute " ++ quoted n])
  | ME_Msg t => Ok (lit "error: " ++ unlines [t])
  | ME_Manifest t =>
      let? l := display_at s d (fun m => m) (fun _ => None) t in Ok (lit "error: " ++ unlines l)
  end.
