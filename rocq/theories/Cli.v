(** Cli.v -- the command line program: stuart/src/build.rs, config/mod.rs, scripts.rs,
    main.rs (clean, bench), plugins/mod.rs (load). *)

From Coq Require Import String List NArith ZArith Bool.
From Verif Require Import Text Json Base Syntax Parse Tree Interp Build Disk.
Import ListNotations.

(** [RawConfig], [Site], [Settings]: stuart/src/config/mod.rs:13-40 (TOML parsing by serde is not
    modelled; dependencies are in [load_plugins]). *)
Record settings := Settings {
  se_strip : option bool; se_data : option bool; se_meta : option bool
}.
(** [RawConfig], stuart/src/config/mod.rs:13-40. *)
Record raw_config := RawConfig {
  rc_name : text; rc_author : option text; rc_settings : option settings
}.
(** [From<RawConfig> for Config], stuart/src/config/mod.rs:47-71. *)
Definition setting (f : settings -> option bool) (r : raw_config) (default : bool) : bool :=
  match rc_settings r with
  | Some s => match f s with Some b => b | None => default end
  | None => default
  end.
(** stuart/src/config/mod.rs:47-71. *)
Definition to_config (r : raw_config) : config :=
  Config (rc_name r) (rc_author r)
    (setting se_strip r (cf_strip config_default))
    (setting se_data r (cf_data config_default))
    (setting se_meta r (cf_meta config_default)).

(** Result of running a script (scripts.rs:115-132). *)
Inductive script_result := ScriptOk | CouldNotExecute | ScriptFailure (code : Z).
(** Errors of the command line program (stuart/src/error.rs). *)
(** stuart/src/error.rs:14-82. *)
Inductive cli_error := CE (e : error) | CE_Script (name : text) (r : script_result) | CE_Msg.

(** Script names, scripts.rs:20-22. *)
Definition is_pre (n : text) : bool := text_eqb n (lit "onPreBuild.sh") || text_eqb n (lit "onPreBuild").
(** scripts.rs:22. *)
Definition is_post (n : text) : bool := text_eqb n (lit "onPostBuild.sh") || text_eqb n (lit "onPostBuild").
(** [Scripts::from_directory], scripts.rs:55-77: file names in listing order; [e] is the
    [scripts] entry of the project. *)
Definition script_files (e : option ent) : list text :=
  match e with
  | Some (EDir l) => map fst (filter (fun ne => match snd ne with EFile _ => true | _ => false end) l)
  | _ => []
  end.
(** [on_pre_build], scripts.rs:55-77. *)
Definition pre_scripts (e : option ent) : list text := filter is_pre (script_files e).
(** [on_post_build], scripts.rs:55-77. *)
Definition post_scripts (e : option ent) : list text :=
  filter (fun n => negb (is_pre n) && is_post n) (script_files e).

(** What running the named script does to the disk: arbitrary.
    [Command::output], scripts.rs:115-123. *)
Definition script_oracle := text -> ent -> ent * script_result.

(** [Scripts::execute], scripts.rs:96-136. *)
Fixpoint run_scripts (sc : script_oracle) (l : list text) (d : ent) : ent * option cli_error :=
  match l with
  | [] => (d, None)
  | n :: l' =>
      match sc n d with
      | (d', ScriptOk) => run_scripts sc l' d'
      | (d', r) => (d', Some (CE_Script n r))
      end
  end.

(** [StuartContext], build.rs:26-37; the scripts are found once, at [init]. *)
Record context := Context {
  cx_stuart : stuart;
  cx_pre : list text; cx_post : list text;
  cx_mode : text;
  cx_dir : path;
  cx_output : text
}.

(** [StuartContext::init], build.rs:41-121, for a manifest that parsed to [r] in directory [dir]
    and plugins [ps]. *)
Definition init (r : raw_config) (ps : list plugin) (dir : path) (output mode : text) (d : ent) : context :=
  Context (stuart_new (to_config r) ps)
    (pre_scripts (lookup (dir ++ [lit "scripts"]) d))
    (post_scripts (lookup (dir ++ [lit "scripts"]) d))
    mode dir output.

(** Everything outside the program that a build consults. Arguments of build.rs:41-191. *)
Record machine := Machine {
  m_host : host;
  m_ser : value -> bytes;              (* [Value::serialize] *)
  m_osenv : list (text * text);        (* [std::env::vars], lib.rs:139 *)
  m_script : script_oracle
}.
(** Faults injected in the three writing steps of a build.
    The writing steps of build.rs:151-185. *)
Record faults := Faults {
  fl_temp : option (option ent);       (* failing removal of [temp]: what is left of it *)
  fl_save : option fault;
  fl_meta : option fault
}.
(** No failures, build.rs:151-185. *)
Definition no_faults : faults := Faults None None None.

(** A directory to load, [Node::new(dir, ..)]; canonicalisation of a path without links.
    fs/mod.rs:52-75. *)
Definition source_at (p : path) (d : ent) : source_dir :=
  SourceDir p (last p []) (lookup p d).

(** The loop over [static] and [temp], build.rs:142-149 ([dir_path.exists()] is a lookup). *)
Fixpoint merge_dirs (h : host) (dir : path) (names : list text) (d : ent) (st : stuart)
  : stuart * res error unit :=
  match names with
  | [] => (st, Ok tt)
  | n :: names' =>
      match lookup (dir ++ [n]) d with
      | None => merge_dirs h dir names' d st
      | Some e =>
          match node_new h [] false (dir ++ [n]) n (Some e) with
          | Ok t =>
              match merge_output t st with
              | (st', Ok _) => merge_dirs h dir names' d st'
              | (st', r) => (st', r)
              end
          | Err e => (st, Err e)
          | Panic p => (st, Panic p)
          | OutOfFuel => (st, OutOfFuel)
          end
      end
  end.

(** Result of [StuartContext::build]. build.rs:124-191. *)
Inductive cli_result := COk | CErr (e : cli_error) | CPanic (p : panic) | CFuel.
(** The [?] of build.rs:138-149. *)
Definition of_res {A} (r : res error A) : cli_result :=
  match r with Ok _ => COk | Err e => CErr (CE e) | Panic p => CPanic p | OutOfFuel => CFuel end.

(** Building and merging in memory, build.rs:138-149: the new builder state and the result. *)
Definition build_and_merge (m : machine) (c : context) (d : ent) : stuart * res error unit :=
  match build (m_host m) (m_osenv m) (cx_mode c) (source_at (cx_dir c ++ [lit "content"]) d) (cx_stuart c) with
  | (st1, Ok _) => merge_dirs (m_host m) (cx_dir c) [lit "static"; lit "temp"] d st1
  | (st1, r) => (st1, r)
  end.

(** [self.stuart], build.rs:26-37. *)
Definition set_stuart (st : stuart) (c : context) : context :=
  Context st (cx_pre c) (cx_post c) (cx_mode c) (cx_dir c) (cx_output c).

(** Removal of the temp directory, result ignored: build.rs:151. *)
Definition remove_temp (f : option (option ent)) (p : path) (d : ent) : ent :=
  match f with
  | Some junk => update p junk d
  | None => match rmtree p d with IoOk d' => d' | _ => d end
  end.

(** [StuartContext::build], build.rs:124-191 (without the timing). *)
Definition cli_build (m : machine) (f : faults) (c : context) (d : ent) : context * ent * cli_result :=
  match run_scripts (m_script m) (cx_pre c) d with
  | (d1, Some e) => (c, d1, CErr e)
  | (d1, None) =>
      match build_and_merge m c d1 with
      | (st1, Ok _) =>
          let d2 := remove_temp (fl_temp f) (cx_dir c ++ [lit "temp"]) d1 in
          match save (fl_save f) st1 (join_path (cx_dir c) (cx_output c)) d2 with
          | (d3, Ok _) =>
              match (if cf_meta (st_config st1)
                     then save_metadata (m_ser m) (fl_meta f) st1 (cx_dir c ++ [lit "metadata.json"]) d3
                     else (d3, Ok tt)) with
              | (d4, Ok _) =>
                  match run_scripts (m_script m) (cx_post c) d4 with
                  | (d5, None) => (set_stuart st1 c, d5, COk)
                  | (d5, Some e) => (set_stuart st1 c, d5, CErr e)
                  end
              | (d4, r) => (set_stuart st1 c, d4, of_res r)
              end
          | (d3, r) => (set_stuart st1 c, d3, of_res r)
          end
      | (st1, r) => (set_stuart st1 c, d1, of_res r)
      end
  end.

(** The loop of [bench], main.rs:178-187, over builds with one context; [fs] are the faults of the
    builds, numbered from [k]. Timing and progress output are left out. *)
Fixpoint bench_loop (m : machine) (fs : nat -> faults) (k n : nat) (c : context) (d : ent) : ent * cli_result :=
  match n with
  | O => (d, COk)
  | S n' => match cli_build m (fs k) c d with
            | (c', d', COk) => bench_loop m fs (S k) n' c' d'
            | (_, d', r) => (d', r)
            end
  end.
(** [bench], main.rs:160-201, for a manifest that parsed to [r] in directory [dir] and plugins [ps];
    [iters] is the value of the option. *)
Definition bench (m : machine) (fs : nat -> faults) (iters : text) (r : raw_config) (ps : list plugin) (dir : path) (d : ent)
  : ent * cli_result :=
  match parse_usize iters with
  | None => (d, CErr CE_Msg)
  | Some n => bench_loop m fs 0 (N.to_nat n) (init r ps dir (lit "dist") (lit "benchmark") d) d
  end.

(** [clean], main.rs:203-221, in working directory [dir]; each removal may fail. *)
Definition clean_one (rm : path -> ent -> io) (fail : option (option ent)) (p : path) (d : ent)
  : ent * bool :=
  match lookup p d with
  | None => (d, true)
  | Some _ =>
      match fail with
      | Some junk => (update p junk d, false)
      | None => match rm p d with IoOk d' => (d', true) | _ => (d, false) end
      end
  end.
(** [clean], main.rs:203-221. *)
Definition clean (fl : nat -> option (option ent)) (dir : path) (d : ent) : ent * bool :=
  match lookup (dir ++ [lit "stuart.toml"]) d with
  | None => (d, false)
  | Some _ =>
      match clean_one rmtree (fl 0) (dir ++ [lit "dist"]) d with
      | (d1, true) =>
          match clean_one rmtree (fl 1) (dir ++ [lit "_build"]) d1 with
          | (d2, true) => clean_one rmfile (fl 2) (dir ++ [lit "metadata.json"]) d2
          | r => r
          end
      | r => r
      end
  end.

(** Outcome of loading: the plugins pushed, an error, or a panic. plugins/mod.rs:49-201. *)
Inductive load_res := LOk (ps : list plugin) | LErr | LPanic.
(** [load_from_source] (plugins/mod.rs:121-201, [Load.v]) for a named dependency and a source, which
    may change the disk. *)
Definition load_oracle := text -> text -> ent -> ent * load_res.

(** Sources skipped on this platform, plugins/mod.rs:62-90; [js] is the crate feature. *)
Definition skip_source (js : bool) (s : text) : bool :=
  ends_with (lit ".dll") s
  || (negb js && (ends_with (lit ".js") s || ends_with (lit ".mjs") s)).

(** The loop over the sources of one dependency, plugins/mod.rs:61-102. *)
Fixpoint load_sources (js : bool) (ld : load_oracle) (name : text) (srcs : list text) (d : ent) : ent * load_res :=
  match srcs with
  | [] => (d, LErr)
  | s :: srcs' =>
      if skip_source js s then load_sources js ld name srcs' d
      else match ld name s d with
           | (d', LErr) => load_sources js ld name srcs' d'
           | r => r
           end
  end.
(** [plugins::load], plugins/mod.rs:49-118: [deps] is the dependency table in the (arbitrary)
    order of its hash map. *)
Fixpoint load_plugins (js : bool) (ld : load_oracle) (deps : list (text * text)) (d : ent) : ent * load_res :=
  match deps with
  | [] => (d, LOk [])
  | (name, src) :: deps' =>
      let (h, r) := split_char 59%N src in
      match load_sources js ld name (h :: r) d with
      | (d1, LOk ps) =>
          match load_plugins js ld deps' d1 with
          | (d2, LOk ps') => (d2, LOk (ps ++ ps'))
          | x => x
          end
      | x => x
      end
  end.
