(** SpecMain.v -- words for whole runs of the program (C76 to C78). *)

From Coq Require Import String List NArith ZArith Bool.
From Verif Require Import Text Utf8 Json Base Syntax Parse Tree Interp Build Disk Cli Load Dev New Report Main.
From Verif Require Import SpecScope SpecTree SpecDisk SpecProject SpecChars.
Import ListNotations.

(** Something on the terminal that reports an error. *)
Definition complaint (i : note) : bool := match i with Report _ | PluginReport _ _ => true | _ => false end.
(** The manifest at [p] describes the site [r] with these dependencies. *)
Definition manifest_says (w : world) (p : path) (d : ent) (r : raw_config) (deps : list (text * text)) : Prop :=
  exists b t, what p d = KFile b /\ utf8_text b t /\ w_toml w t = TomlOk r deps.
(** The manifest a command reads. *)
Definition manifest_of (w : world) (c : command) (p : path) : Prop :=
  match c with CmdBuild m _ => meant (w_cwd w) m p | CmdBench _ => p = w_cwd w ++ [lit "stuart.toml"] | _ => False end.
(** No call to the file system fails without a reason. *)
Definition untroubled (w : world) : Prop :=
  (forall i, w_build_faults w i = no_faults) /\ (forall i, w_clean_faults w i = None) /\
  w_new_fault w = None /\ w_ignore_fault w = None.
(** The same world from another directory. *)
Definition cd (p : path) (w : world) : world :=
  World (w_host w) (w_ser w) (w_osenv w) (w_scripts w) (w_toml w) (w_loader w) (w_load_faults w) (w_build_faults w)
    (w_clean_faults w) (w_template w) (w_git w) (w_new_fault w) (w_ignore_fault w) p.
(** The same world with other scripts. *)
Definition with_scripts (s : list (text * text) -> script_oracle) (w : world) : world :=
  World (w_host w) (w_ser w) (w_osenv w) s (w_toml w) (w_loader w) (w_load_faults w) (w_build_faults w)
    (w_clean_faults w) (w_template w) (w_git w) (w_new_fault w) (w_ignore_fault w) (w_cwd w).
(** A source of a dependency that is followed by another. *)
Definition not_last_source (deps : list (text * text)) (name s : text) : Prop :=
  exists h r a b, In (name, joined 59%N h r) deps /\ ~ In 59%N h /\ Forall (fun k => ~ In 59%N k) r /\
    h :: r = a ++ s :: b /\ b <> [].
(** A variable of an environment: [Command::envs] sets one after the other, so the last counts. *)
Definition is_set (env : list (text * text)) (k v : text) : Prop :=
  exists a b, env = a ++ (k, v) :: b /\ ~ In k (map fst b).
(** The variable [k] is an absolute path to [p]. *)
Definition names (env : list (text * text)) (k : text) (p : path) : Prop :=
  exists v, is_set env k v /\ forall base, meant base v p.
(** What a script finds in its environment. *)
Definition script_vars (env : list (text * text)) (manifest dir out : path) (mode : text) : Prop :=
  names env (lit "STUART_MANIFEST_PATH") manifest /\ names env (lit "STUART_MANIFEST_DIR") dir /\
  names env (lit "STUART_TEMP_DIR") (dir ++ [lit "temp"]) /\ names env (lit "STUART_OUT_DIR") out /\
  is_set env (lit "STUART_ENV") mode.
