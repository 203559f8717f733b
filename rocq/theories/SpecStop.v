(** SpecStop.v -- words for commands that cannot do their work (C87). *)

From Coq Require Import String List NArith ZArith Bool.
From Verif Require Import Text Utf8 Json Base Syntax Parse Tree Interp Build Disk Cli Load Dev New Report Main.
From Verif Require Import SpecScope SpecTree SpecDisk SpecProject SpecChars SpecMain.
Import ListNotations.

(** What is wrong with the manifest at [p].  The parser counts lines and columns from zero. *)
Inductive manifest_fault (w : world) (p : path) (d : ent) : main_error -> Prop :=
| mf_missing : what p d = KNone -> manifest_fault w p d (ME_Msg (lit "invalid manifest path"))
| mf_kind : what p d = KDir \/ what p d = KOther -> manifest_fault w p d (ME_Msg (lit "failed to read manifest:"))
| mf_bytes b : what p d = KFile b -> (forall t, ~ utf8_text b t) -> manifest_fault w p d (ME_Msg (lit "failed to read manifest:"))
| mf_place b t l c m : what p d = KFile b -> utf8_text b t -> w_toml w t = TomlErr (Some (l, c)) m ->
    manifest_fault w p d (ME_Manifest (TB p (1 + l) (1 + c) m))
| mf_text b t m : what p d = KFile b -> utf8_text b t -> w_toml w t = TomlErr None m ->
    manifest_fault w p d (ME_Msg (lit "failed to parse manifest:" ++ [c_lf] ++ lit "  " ++ m)).

(** The dependencies up to one load, and that one ends in [x]. *)
Definition stops_loading (w : world) (dir : path) (deps : list (text * text)) (d d' : ent) (x : load_res) : Prop :=
  let ld := load_from_source (w_loader w) (w_load_faults w) dir in
  exists a dep b d1 ps, deps = a ++ dep :: b /\ loads_all (lo_js (w_loader w)) ld a d d1 ps /\ loads_from (lo_js (w_loader w)) ld dep d1 d' x.

(** Something is at [p] and cannot be removed as a directory, as a file. *)
Definition stuck_dir (fault : option (option ent)) (p : path) (d : ent) : Prop :=
  what p d <> KNone /\ (fault <> None \/ what p d <> KDir).
Definition stuck_file (fault : option (option ent)) (p : path) (d : ent) : Prop :=
  what p d <> KNone /\ (fault <> None \/ forall b, what p d <> KFile b).
(** Cleaning the directory [dir] removes the entries [gone] and stops at the entry [at_]. *)
Inductive clean_stops (fl : nat -> option (option ent)) (dir : path) (d : ent) : list text -> text -> option (option ent) -> text -> Prop :=
| cs_output : stuck_dir (fl 0) (dir ++ [lit "dist"]) d ->
    clean_stops fl dir d [] (lit "dist") (fl 0) (lit "failed to remove output directory")
| cs_build : ~ stuck_dir (fl 0) (dir ++ [lit "dist"]) d -> stuck_dir (fl 1) (dir ++ [lit "_build"]) d ->
    clean_stops fl dir d [lit "dist"] (lit "_build") (fl 1) (lit "failed to remove build directory")
| cs_metadata : ~ stuck_dir (fl 0) (dir ++ [lit "dist"]) d -> ~ stuck_dir (fl 1) (dir ++ [lit "_build"]) d ->
    stuck_file (fl 2) (dir ++ [lit "metadata.json"]) d ->
    clean_stops fl dir d [lit "dist"; lit "_build"] (lit "metadata.json") (fl 2) (lit "failed to remove metadata file").
(** [q] is one of the entries [l] of [dir] or inside one. *)
Definition among (dir : path) (l : list text) (q : path) : Prop := exists n, In n l /\ above (dir ++ [n]) q.
