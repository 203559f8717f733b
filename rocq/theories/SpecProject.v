(** SpecProject.v -- builds of a project directory (C41, C43, C44, C48, C49). *)

From Coq Require Import String List NArith ZArith Bool.
From Verif Require Import Text Json Base Syntax Parse Tree Interp Build Disk Cli SpecScope SpecTree SpecDisk.
Import ListNotations.

(** The scripts [l] ran one after the other, all successfully, and led from one disk to another. *)
Inductive ran (sc : script_oracle) : list text -> ent -> ent -> Prop :=
| ra_nil d : ran sc [] d d
| ra_cons n l d d1 d2 : sc n d = (d1, ScriptOk) -> ran sc l d1 d2 -> ran sc (n :: l) d d2.
(** The scripts [l] leave the paths satisfying [P] alone. *)
Definition scripts_leave (sc : script_oracle) (l : list text) (P : path -> Prop) : Prop :=
  forall n d q, In n l -> P q -> what q (fst (sc n d)) = what q d.

Definition output_dir (c : context) : path := join_path (cx_dir c) (cx_output c).
(** Walking from a directory: one component at a time. *)
Inductive walk : path -> list text -> path -> Prop :=
| wa_end p : walk p [] p
| wa_stay p n l q : n = [] \/ n = lit "." -> walk p l q -> walk p (n :: l) q
| wa_up p k l q : walk p l q -> walk (p ++ [k]) (lit ".." :: l) q
| wa_top l q : walk [] l q -> walk [] (lit ".." :: l) q
| wa_down p n l q : plain n -> walk (p ++ [n]) l q -> walk p (n :: l) q.
(** The directory that a path given on the command line means in the directory [base]. *)
Definition meant (base : path) (arg : text) (q : path) : Prop :=
  exists h r, arg = slashed h r /\ Forall (fun k => ~ In c_slash k) (h :: r) /\ ((h = [] /\ r <> [] /\ walk [] r q) \/ ((h = [] -> r = []) /\ walk base (h :: r) q)).
(** A project whose names stay inside the output directory and whose plugins have no parsers. *)
Definition inward_project (c : context) (d : ent) : Prop :=
  names_at inward (cx_dir c ++ [lit "content"]) d /\
  names_at plain (cx_dir c ++ [lit "static"]) d /\ names_at plain (cx_dir c ++ [lit "temp"]) d /\
  flat_map pl_parsers (st_plugins (cx_stuart c)) = [].

(** The directory [e] is at [p]; an empty one if there is nothing. *)
Definition present (p : path) (d e : ent) : Prop := lookup p d = Some e \/ (lookup p d = None /\ e = EDir []).

(** ** Building twice *)
(** Two contexts of one project: same manifest, plugins, mode and directory. *)
Definition same_project (c c' : context) : Prop :=
  st_config (cx_stuart c') = st_config (cx_stuart c) /\ st_plugins (cx_stuart c') = st_plugins (cx_stuart c) /\
  cx_mode c' = cx_mode c /\ cx_dir c' = cx_dir c.
Definition same_sources (dir : path) (d d' : ent) : Prop :=
  forall n, In n [lit "content"; lit "static"; lit "temp"] -> lookup (dir ++ [n]) d' = lookup (dir ++ [n]) d.
(** Neither path contains the other. *)
Definition apart (p q : path) : Prop := ~ above p q /\ ~ above q p.
(** The scripts of a project do nothing. *)
Definition idle_scripts (m : machine) (c : context) : Prop :=
  forall n d, In n (cx_pre c ++ cx_post c) -> m_script m n d = (d, ScriptOk).

(** [n] builds one after the other, each with the context and disk the last one left; [fs] are the
    faults of the builds. *)
Inductive builds (m : machine) (fs : nat -> faults) : nat -> context -> ent -> context -> ent -> Prop :=
| bu_none c d : builds m fs 0 c d c d
| bu_more n c d c1 d1 c2 d2 : builds m fs n c d c1 d1 -> cli_build m (fs n) c1 d1 = (c2, d2, COk) -> builds m fs (S n) c d c2 d2.

(** ** Scripts *)

(** The entries of a directory that are files with a name of [P], in its order. *)
Inductive listed (P : text -> Prop) : list (text * ent) -> list text -> Prop :=
| li_nil : listed P [] []
| li_take n b l r : P n -> listed P l r -> listed P ((n, EFile b) :: l) (n :: r)
| li_skip n e l r : ~ P n \/ (forall b, e <> EFile b) -> listed P l r -> listed P ((n, e) :: l) r.
Definition pre_name (n : text) : Prop := n = lit "onPreBuild.sh" \/ n = lit "onPreBuild".
Definition post_name (n : text) : Prop := n = lit "onPostBuild.sh" \/ n = lit "onPostBuild".
(** Running [l] stops at the script [n] with the result [r], leaving the disk [d1]. *)
Definition stops (sc : script_oracle) (l : list text) (d : ent) (n : text) (r : script_result) (d1 : ent) : Prop :=
  exists a b d0, l = a ++ n :: b /\ ran sc a d d0 /\ sc n d0 = (d1, r) /\ r <> ScriptOk.
(** The site of the context [c] has been saved on the disk [d], starting from [d1]. *)
Definition saved_site (m : machine) (c : context) (d1 d : ent) : Prop := exists out ch,
  st_output (cx_stuart c) = Some out /\ n_children out = Some ch /\
  (forall l, ent_distinct d1 -> saves_all (st_config (cx_stuart c)) [] ch l -> ~ above (output_dir c) (cx_dir c ++ [lit "metadata.json"]) ->
     exactly (output_dir c) l d) /\
  (cf_meta (st_config (cx_stuart c)) = true -> exists v, metadata_value (cx_stuart c) = Ok v /\
     what (cx_dir c ++ [lit "metadata.json"]) d = KFile (m_ser m v)).

(** ** Plugins *)

(** Texts joined by a separator. *)
Fixpoint joined (c : char) (h : text) (r : list text) : text :=
  match r with [] => h | k :: r' => h ++ [c] ++ joined c k r' end.
Definition ending (s e : text) : Prop := exists a, s = a ++ e.
(** Sources that are tried on this platform, with or without JavaScript. *)
Definition supported (js : bool) (s : text) : Prop :=
  ~ ending s (lit ".dll") /\ (js = true \/ (~ ending s (lit ".js") /\ ~ ending s (lit ".mjs"))).
(** Sources none of which can be loaded. *)
Inductive tried (js : bool) (ld : load_oracle) (name : text) : list text -> ent -> ent -> Prop :=
| tr_none d : tried js ld name [] d d
| tr_skip s l d d' : ~ supported js s -> tried js ld name l d d' -> tried js ld name (s :: l) d d'
| tr_fail s l d d1 d' : supported js s -> ld name s d = (d1, LErr) -> tried js ld name l d1 d' -> tried js ld name (s :: l) d d'.
(** A dependency is loaded from the first of its sources that can be. *)
Inductive loads_from (js : bool) (ld : load_oracle) : text * text -> ent -> ent -> load_res -> Prop :=
| lf_first name h r a s b d d1 d' x : ~ In 59%N h -> Forall (fun k => ~ In 59%N k) r -> h :: r = a ++ s :: b ->
    tried js ld name a d d1 -> supported js s -> ld name s d1 = (d', x) -> x <> LErr ->
    loads_from js ld (name, joined 59%N h r) d d' x
| lf_none name h r d d' : ~ In 59%N h -> Forall (fun k => ~ In 59%N k) r -> tried js ld name (h :: r) d d' ->
    loads_from js ld (name, joined 59%N h r) d d' LErr.
(** Dependencies loaded one after the other. *)
Inductive loads_all (js : bool) (ld : load_oracle) : list (text * text) -> ent -> ent -> list plugin -> Prop :=
| la_none d : loads_all js ld [] d d []
| la_more dep deps d d1 d' ps ps' : loads_from js ld dep d d1 (LOk ps) -> loads_all js ld deps d1 d' ps' ->
    loads_all js ld (dep :: deps) d d' (ps ++ ps').

(** ** Cleaning *)
Definition generated (dir : path) (q : path) : Prop :=
  above (dir ++ [lit "dist"]) q \/ above (dir ++ [lit "_build"]) q \/ above (dir ++ [lit "metadata.json"]) q.
