(** SpecMode.v -- sites that do not tell in which mode they are built (C94). *)

From Coq Require Import String List NArith ZArith Bool.
From Verif Require Import Text Utf8 Json Base Syntax Parse Tree Interp Build Disk Cli Report Main SpecScope SpecDisk SpecProject SpecAlike.
Import ListNotations.

(** No tag of the content directory mentions [$env.STUART_ENV], and the plugins do not look at the environment
    more closely than the tags. *)
Definition unaware (h : host) (ps : list plugin) (content : ent) : Prop :=
  steady eq (Some (mentioned h ps content)) ps /\ ~ mentioned h ps content (lit "STUART_ENV").
(** The command ends, with success or with an error it has reported. *)
Definition exits (e : exit) : bool := match e with Exit n => N.leb n 1 | Runs => false end.
(** Scripts that do the same in development as in production. *)
Definition modeless (w : world) (manifest : path) (output : text) : Prop :=
  forall n x, w_scripts w (script_env manifest output (lit "production")) n x = w_scripts w (script_env manifest output (lit "development")) n x.
(** A project whose content does not read the mode, when the scripts that run before the build are done. *)
Definition unaware_project (w : world) (manifest dir : path) (output : text) (ps : list plugin) (d : ent) : Prop :=
  forall d1 content, ran (w_scripts w (script_env manifest output (lit "development"))) (pre_scripts (lookup (dir ++ [lit "scripts"]) d)) d d1 ->
    lookup (dir ++ [lit "content"]) d1 = Some content -> unaware (w_host w) ps content.
