(** SpecSettings.v -- two builds of one project that differ in the settings of its manifest (C98). *)

From Coq Require Import String List NArith ZArith Bool.
From Verif Require Import Text Json Base Syntax Parse Tree Interp Build Disk Cli SpecScope SpecTree SpecDisk SpecProject.
Import ListNotations.

(** The builder and the project with the settings [cf]. *)
Definition with_config (cf : config) (st : stuart) : stuart := Stuart (st_input st) (st_output st) cf (st_base st) (st_plugins st).
Definition configured (cf : config) (c : context) : context :=
  Context (with_config cf (cx_stuart c)) (cx_pre c) (cx_post c) (cx_mode c) (cx_dir c) (cx_output c).
(** A tree without what is recorded in it for the metadata. *)
Fixpoint bare (n : node) : node :=
  match n with
  | NFile name b pc _ src => NFile name b pc None src
  | NDir name ch src => NDir name (map bare ch) src
  end.

(** The same settings but for one. *)
Definition titled (name : text) (author : option text) (cf : config) : config := Config name author (cf_strip cf) (cf_data cf) (cf_meta cf).
Definition stripping (b : bool) (cf : config) : config := Config (cf_name cf) (cf_author cf) b (cf_data cf) (cf_meta cf).
Definition with_data (b : bool) (cf : config) : config := Config (cf_name cf) (cf_author cf) (cf_strip cf) b (cf_meta cf).
Definition with_metadata (b : bool) (cf : config) : config := Config (cf_name cf) (cf_author cf) (cf_strip cf) (cf_data cf) b.

Definition metadata_file (c : context) : path := cx_dir c ++ [lit "metadata.json"].
(** What the build with [c] did: the disk it left and its result. *)
Definition leaves (m : machine) (f : faults) (c : context) (d : ent) : ent * cli_result :=
  (snd (fst (cli_build m f c d)), snd (cli_build m f c d)).

(** [ks] is a file in one of the directories that are copied as they are; [d] is the disk when they are read. *)
Definition copied (c : context) (d : ent) (ks : path) : Prop :=
  exists n b, In n [lit "static"; lit "temp"] /\ lookup (cx_dir c ++ n :: ks) d = Some (EFile b).
(** Where a page is with the extensions left out. *)
Inductive without_extension : path -> path -> Prop :=
| we_page ks stem : stem <> [] -> stem <> [c_dot] -> stem <> lit "index" -> without_extension (ks ++ [stem ++ lit ".html"]) (ks ++ [stem; lit "index.html"])
| we_nameless ks stem : stem = [] \/ stem = [c_dot] -> without_extension (ks ++ [stem ++ lit ".html"]) (ks ++ [lit "index.html"])
| we_index ks : without_extension (ks ++ [lit "index.html"]) (ks ++ [lit "index.html"])
| we_other ks name : (forall stem, name <> stem ++ lit ".html") -> without_extension (ks ++ [name]) (ks ++ [name]).
(** Where a file is with the extensions left out: static files stay. *)
Definition goes (c : context) (d : ent) (q0 q : path) : Prop :=
  (copied c d q0 /\ q = q0) \/ (~ copied c d q0 /\ without_extension q0 q).
(** A data file. *)
Definition data_file (q : path) : Prop := exists ks s, q = ks ++ [s ++ lit ".json"].

(** The scripts that run after a build do nothing. *)
Definition idle_after (m : machine) (c : context) : Prop := forall n d, In n (cx_post c) -> m_script m n d = (d, ScriptOk).
(** A disk on which [c] can be built without leaving its output directory. *)
Definition sound (f : faults) (c : context) (d : ent) : Prop :=
  ent_distinct d /\ inward_project c d /\ (forall e, fl_temp f = Some (Some e) -> ent_distinct e) /\
  (cf_meta (st_config (cx_stuart c)) = true -> ~ above (output_dir c) (metadata_file c)).
