(** SpecRecover.v -- disks left by builds that were cut short (C95). *)

From Coq Require Import String List NArith Bool.
From Verif Require Import Text Json Base Tree Build Disk Cli Load New Report Main SpecTree SpecDisk SpecProject.
Import ListNotations.

(** A disk from which a project can be built: there is no file in the way of the output directory, no directory in the way of the metadata file, and no temporary
    directory. *)
Definition clear_way (c : context) (d : ent) : Prop :=
  ent_distinct d /\ what (cx_dir c ++ [lit "temp"]) d = KNone /\
  (what (output_dir c) d = KNone \/ what (output_dir c) d = KDir) /\
  (cf_meta (st_config (cx_stuart c)) = true -> what (cx_dir c ++ [lit "metadata.json"]) d = KNone \/ exists b, what (cx_dir c ++ [lit "metadata.json"]) d = KFile b).
(** Two disks that differ at most in the output directory and, if one is to be written, the metadata file. *)
Definition same_but_output (c : context) (d d' : ent) : Prop :=
  (forall n, In n [lit "content"; lit "static"] -> lookup (cx_dir c ++ [n]) d' = lookup (cx_dir c ++ [n]) d) /\
  forall q, ~ above (output_dir c) q -> (cf_meta (st_config (cx_stuart c)) = true -> ~ above (cx_dir c ++ [lit "metadata.json"]) q) -> what q d' = what q d.
(** Builds one after the other, each with its own faults and result, by one process or by several; each leaves a disk of the above kind. *)
Inductive attempts (m : machine) (c : context) : ent -> ent -> Prop :=
| at_none d : attempts m c d d
| at_more d f c' c1 d1 r d2 : same_project c c' -> cx_pre c' = cx_pre c -> cx_post c' = cx_post c -> cx_output c' = cx_output c ->
    cli_build m f c' d = (c1, d1, r) -> clear_way c d1 -> attempts m c d1 d2 -> attempts m c d d2.
(** The same world with other failures of the disk. *)
Definition faulty (fs : nat -> faults) (w : world) : world :=
  World (w_host w) (w_ser w) (w_osenv w) (w_scripts w) (w_toml w) (w_loader w) (w_load_faults w) fs
    (w_clean_faults w) (w_template w) (w_git w) (w_new_fault w) (w_ignore_fault w) (w_cwd w).
(** Runs of [stuart build], each with its own failures. *)
Inductive runs (w : world) (manifest output : text) (c : context) : ent -> ent -> Prop :=
| ru_none d : runs w manifest output c d d
| ru_more d fs lv d1 e items d2 : main (faulty fs w) lv (CmdBuild manifest output) d = (d1, e, items) -> clear_way c d1 ->
    runs w manifest output c d1 d2 -> runs w manifest output c d d2.
