(** SpecPlugins.v -- words for what several plugins provide together (C70, C71). *)

From Coq Require Import String List NArith ZArith Bool.
From Verif Require Import Text Base Syntax Tree Build Cli SpecTemplate.
Import ListNotations.

(** A template can call something of the plugin by that name. *)
Definition offers (p : plugin) (name : text) : Prop := exists f, In f (pl_fns p) /\ answers name (pl_name p) f.
(** The plugin reads files with that extension. *)
Definition handles (p : plugin) (e : text) : Prop := exists np, In np (pl_parsers p) /\ In e (npa_exts np).
(** Extensions that are read without plugins. *)
Definition page_exts : list text := map lit ["html"; "md"; "json"]%string.

(** Two plugins that provide the same thing, not counting what plugins cannot provide. *)
Definition clash (p q : plugin) : Prop :=
  (exists name, ~ In name builtin_names /\ offers p name /\ offers q name) \/
  (exists e, ~ In e page_exts /\ handles p e /\ handles q e).
(** No two of the plugins clash. *)
Definition agreed (ps : list plugin) : Prop := ForallOrdPairs (fun p q => ~ clash p q) ps.
(** A plugin that reads no files of its own. *)
Definition functions_only (p : plugin) : Prop := forall e, handles p e -> In e page_exts.

(** The same project with other plugins. *)
Definition with_plugins (ps : list plugin) (c : context) : context :=
  let st := cx_stuart c in
  Context (Stuart (st_input st) (st_output st) (st_config st) (st_base st) ps) (cx_pre c) (cx_post c) (cx_mode c) (cx_dir c) (cx_output c).

(** The name has no colon in it. *)
Definition plain_name (t : text) : Prop := ~ In c_colon t.
