(** Load.v -- where plugins come from: stuart/src/plugins/mod.rs:121-258, plugins/source.rs,
    config/git.rs:47-75. *)

From Coq Require Import String List NArith ZArith Bool.
From Verif Require Import Text Utf8 Json Base Syntax Parse Tree Interp Build Disk Cli.
Import ListNotations.

(** What loading consults besides the disk (plugins/mod.rs:121-258, source.rs:1-88, config/git.rs:47-75); the answers of the network do not change during a run. *)
Record loader := Loader {
  lo_js : bool;                                    (* the crate feature [js], plugins/mod.rs:5 *)
  lo_remote : text -> bool;                        (* [git::exists], config/git.rs:48-54 *)
  lo_clone : text -> path -> ent -> ent * bool;    (* [git::clone], config/git.rs:59-65 *)
  lo_pull : path -> ent -> ent * bool;             (* [git::pull], config/git.rs:70-75 *)
  lo_get : text -> option bytes;                   (* [download_plugin], source.rs:83-88 *)
  lo_package : text -> option text;                (* [package.name] of a manifest, source.rs:74-79 *)
  lo_cargo : path -> ent -> ent * bool;            (* [cargo build --release], source.rs:39-55 *)
  lo_binary : path -> ent -> option plugin;        (* [load_binary], plugins/mod.rs:228-242 *)
  lo_script : path -> ent -> res text plugin       (* [load_js], plugins/mod.rs:246-251; see [JsLoad.v] *)
}.

(** [?] on a load, plugins/mod.rs:132,142,186,195. *)
Definition loaded (p : option plugin) : load_res := match p with Some p => LOk [p] | None => LErr end.
(** The same for a script, plugins/mod.rs:217. *)
Definition script_loaded (r : res text plugin) : load_res :=
  match r with Ok p => LOk [p] | Err _ => LErr | _ => LPanic end.
(** [DynamicPluginManager::load], plugins/mod.rs:210-222: without the feature a script loads nothing
    and succeeds. *)
Definition load_path (L : loader) (p : path) (d : ent) : load_res :=
  let ext := match extension (last p []) with Some e => e | None => [] end in
  if text_eqb ext (lit "js") || text_eqb ext (lit "mjs") then
    if lo_js L then script_loaded (lo_script L p d) else LOk []
  else loaded (lo_binary L p d).

(** [get_project_name], source.rs:71-80. *)
Definition project_name (L : loader) (e : option ent) : option text :=
  match e with
  | Some (EFile b) => match from_utf8 b with Some t => lo_package L t | None => None end
  | _ => None
  end.
(** [find_cargo_project], source.rs:12-31, in directory [e] at [p]. *)
Fixpoint find_project (L : loader) (name : text) (p : path) (e : ent) : option path :=
  match e with
  | EDir l =>
      (fix go (l : list (text * ent)) : option path :=
        match l with
        | [] => None
        | (k, EFile b) :: l' =>
            if text_eqb k (lit "Cargo.toml")
               && match project_name L (Some (EFile b)) with Some n => text_eqb n name | None => false end
            then Some p else go l'
        | (k, EOther) :: l' => go l'
        | (k, e') :: l' =>
            match find_project L name (p ++ [k]) e' with
            | Some q => Some q
            | None => go l'
            end
        end) l
  | _ => None
  end.
(** [build_cargo_project] and the load of what it built, source.rs:36-68, plugins/mod.rs:140-142 and
    183-186; the [unwrap] of source.rs:65. *)
Definition build_and_load (L : loader) (p : path) (d : ent) : ent * load_res :=
  match lo_cargo L p d with
  | (d1, false) => (d1, LErr)
  | (d1, true) =>
      match project_name L (lookup (p ++ [lit "Cargo.toml"]) d1) with
      | None => (d1, LPanic)
      | Some n =>
          (d1, loaded (lo_binary L (join_path (p ++ [lit "target"; lit "release"]) (lit "lib" ++ n ++ lit ".so")) d1))
      end
  end.

(** A path and everything it is in, source for [create_dir_all] at plugins/mod.rs:155,193. *)
Fixpoint prefixes (p : path) : list path :=
  match p with [] => [[]] | c :: p' => [] :: map (cons c) (prefixes p') end.
(** [create_dir_all], plugins/mod.rs:155,193: the directories that are not there are made, in order
    (the library tries the innermost first, to the same effect). *)
Definition mkdir_all (p : path) (d : ent) : list op :=
  map OMkDir (filter (fun q => negb (is_edir (lookup q d))) (prefixes p)).

(** Cloning or pulling, plugins/mod.rs:146-176, into [store]; whether it succeeded. *)
Definition fetch (L : loader) (f : option fault) (root store : path) (src : text) (d : ent) : ent * bool :=
  match lookup store d with
  | None =>
      match run_ops f (mkdir_all (root ++ [lit "_build"; lit "plugins"]) d) d with
      | (d1, false) => (d1, false)
      | (d1, true) => lo_clone L src store d1
      end
  | Some _ => lo_pull L store d
  end.

(** [load_from_source], plugins/mod.rs:121-201, in project directory [root]; [fs] are the failures of
    the calls that write. *)
Definition load_from_source (L : loader) (fs : text -> text -> option fault) (root : path) (name src : text) (d : ent)
  : ent * load_res :=
  let source := join_path root src in
  let store := join_path root (lit "_build/plugins/" ++ name) in
  match lookup source d, lookup (source ++ [lit "Cargo.toml"]) d with
  | Some (EFile _), _ => (d, load_path L source d)
  | _, Some _ => build_and_load L source d
  | _, None =>
      if lo_remote L src then
        match fetch L (fs name src) root store src d with
        | (d2, false) => (d2, LErr)
        | (d2, true) =>
            match lookup store d2 with
            | None => (d2, LErr)
            | Some e =>
                match find_project L name store e with
                | None => (d2, LErr)
                | Some p => build_and_load L p d2
                end
            end
        end
      else
        match lo_get L src with
        | None => (d, LErr)
        | Some b =>
            let (h, r) := split_char c_slash src in
            let file := join_path store (last (h :: r) []) in
            let dirs := match lookup store d with None => mkdir_all store d | Some _ => [] end in
            match run_ops (fs name src) (dirs ++ [OWrite file b]) d with
            | (d1, false) => (d1, LErr)
            | (d1, true) => (d1, load_path L file d1)
            end
        end
  end.
