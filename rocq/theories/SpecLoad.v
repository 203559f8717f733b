(** SpecLoad.v -- words for where plugins come from (C68, C69). *)

From Coq Require Import String List NArith ZArith Bool.
From Verif Require Import Text Utf8 Json Base Syntax Parse Tree Interp Build Disk Cli Load SpecScope SpecTree SpecDisk SpecProject.
From Verif Require SpecChars.
Import ListNotations.

(** A program that changes nothing outside the directory it is given. *)
Definition stays_below (run : path -> ent -> ent * bool) : Prop := forall p d, same_outside p d (fst (run p d)).
Definition tidy (L : loader) : Prop := (forall u, stays_below (lo_clone L u)) /\ stays_below (lo_pull L) /\ stays_below (lo_cargo L).
(** The sources written for a dependency. *)
Definition source_of (deps : list (text * text)) (name s : text) : Prop :=
  exists h r, In (name, joined 59%N h r) deps /\ ~ In 59%N h /\ Forall (fun k => ~ In 59%N k) r /\ In s (h :: r).
(** Two surroundings that differ only in what git and the network answer. *)
Definition same_local (L L' : loader) : Prop :=
  lo_js L' = lo_js L /\ lo_package L' = lo_package L /\ lo_cargo L' = lo_cargo L /\ lo_binary L' = lo_binary L /\ lo_script L' = lo_script L.
(** A source that is in the project: a file, or a directory with a manifest. *)
Definition local (root : path) (src : text) (d : ent) : Prop :=
  exists p, meant root src p /\ ((exists b, what p d = KFile b) \/ what (p ++ [lit "Cargo.toml"]) d <> KNone).
(** The package that the manifest in directory [p] is for. *)
Definition package (L : loader) (p : path) (d : ent) (name : text) : Prop :=
  exists b t, what (p ++ [lit "Cargo.toml"]) d = KFile b /\ SpecChars.utf8_text b t /\ lo_package L t = Some name.
(** Loading the script [p] neither gives a plugin nor an error. *)
Definition script_crashes (L : loader) (p : path) (d : ent) : Prop :=
  lo_js L = true /\ (forall pl, lo_script L p d <> Ok pl) /\ forall m, lo_script L p d <> Err m.
(** The place for what is fetched for a dependency. *)
Definition store (root : path) (name : text) : path := root ++ [lit "_build"; lit "plugins"; name].
(** The text after the last slash. *)
Definition last_segment (s seg : text) : Prop := ~ In c_slash seg /\ (s = seg \/ exists a, s = a ++ [c_slash] ++ seg).
(** A repository is cloned if it is not there, and pulled if it is. *)
Inductive fetches (L : loader) (root : path) (name src : text) : ent -> ent -> Prop :=
| fe_clone d d1 d2 : what (store root name) d = KNone -> same_outside (root ++ [lit "_build"]) d d1 ->
    what (root ++ [lit "_build"; lit "plugins"]) d1 = KDir -> lo_clone L src (store root name) d1 = (d2, true) -> fetches L root name src d d2
| fe_pull d d2 : what (store root name) d <> KNone -> lo_pull L (store root name) d = (d2, true) -> fetches L root name src d d2.
(** The library cargo makes of a package: hyphens of its name become underscores. *)
Definition crate_name (name : text) : text := map (fun c => if N.eqb c 45 then 95%N else c) name.
Definition library (p : path) (name : text) : path := p ++ [lit "target"; lit "release"; lit "lib" ++ name ++ lit ".so"].
