(** SpecSays.v -- data files and posts that say the same (C104). *)

From Coq Require Import String List NArith ZArith Bool.
From Verif Require Import Text Utf8 Json Base Syntax Parse Tree Interp Build Disk Cli Load Report Main SpecUtf8 SpecTree SpecSite SpecDisk.
Import ListNotations.

(** Two contents of a source file that say the same: data files with the same value (or none), and posts
    with the same front matter and the same body. *)
Inductive says_same (h : host) (name : text) : bytes -> bytes -> Prop :=
| ss_same b : says_same h name b b
| ss_data b b' t t' : has_ext name (lit "json") -> utf8_text b t -> utf8_text b' t' -> h_json h t' = h_json h t ->
    says_same h name b b'
| ss_post b b' t t' fm body : has_ext name (lit "md") -> utf8_text b t -> utf8_text b' t' -> md_parts t fm body -> md_parts t' fm body ->
    says_same h name b b'.
Inductive sources_say (h : host) : text -> ent -> ent -> Prop :=
| so_file name b b' : says_same h name b b' -> sources_say h name (EFile b) (EFile b')
| so_dir name l l' : Forall2 (fun x x' => fst x' = fst x /\ sources_say h (fst x) (snd x) (snd x')) l l' ->
    sources_say h name (EDir l) (EDir l')
| so_other name : sources_say h name EOther EOther.

(** What comes out: the same, but for the contents of data files, which are those of the sources. *)
Inductive output_says : node -> node -> Prop :=
| os_same name b pc meta src : output_says (NFile name b pc meta src) (NFile name b pc meta src)
| os_data name b b' pc meta src : has_ext name (lit "json") -> output_says (NFile name b pc meta src) (NFile name b' pc meta src)
| os_dir name ch ch' src : Forall2 output_says ch ch' -> output_says (NDir name ch src) (NDir name ch' src).

(** Two disks that differ in the contents of data files only. *)
Definition same_but_data (d d' : ent) : Prop := forall q,
  what q d' = what q d \/ (exists dir s b b', q = dir ++ [s ++ lit ".json"] /\ what q d = KFile b /\ what q d' = KFile b').

(** The entry at [p] is [e], on the other disk it is [e'], and all else is the same. *)
Definition edited (p : path) (e e' : ent) (d d' : ent) : Prop := lookup p d = Some e /\ d' = update p (Some e') d.
(** Both commands end in the same way, with the same error message if there is one. *)
Definition same_end (x x' : exit) (items items' : list note) : Prop :=
  x' = x /\ (x = Exit 1 -> exists err its its', items = its ++ [Report err] /\ items' = its' ++ [Report err]).
(** The contents of these files may be different on two disks: data files, and posts of the project. *)
Definition data_or_post (content q : path) : Prop := exists k s, q = k ++ [s ++ lit ".json"] \/ (above content q /\ q = k ++ [s ++ lit ".md"]).
