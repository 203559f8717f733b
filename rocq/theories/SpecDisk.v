(** SpecDisk.v -- what is on a disk and what a save leaves there (C39 to C44). *)

From Coq Require Import String List NArith ZArith Bool.
From Verif Require Import Text Json Base Syntax Parse Tree Interp Build Disk SpecScope SpecTree.
Import ListNotations.

(** What is at a path. *)
Inductive kind := KNone | KFile (b : bytes) | KDir | KOther.
Definition kind_of (e : option ent) : kind :=
  match e with None => KNone | Some (EFile b) => KFile b | Some (EDir _) => KDir | Some EOther => KOther end.
Definition what (p : path) (d : ent) : kind := kind_of (lookup p d).

(** [p] is [q] or a directory around it. *)
Definition above (p q : path) : Prop := exists r, q = p ++ r.
(** Two disks agree except at and below [p]. *)
Definition same_outside (p : path) (d d' : ent) : Prop := forall q, ~ above p q -> what q d' = what q d.

(** ** The files of a saved tree *)

(** Names that are one component of a path. *)
Definition plain (n : text) : Prop := n <> [] /\ n <> [c_dot] /\ n <> [c_dot; c_dot] /\ ~ In c_slash n.
Definition hidden (cf : config) (name : text) : Prop :=
  is_template name \/ (cf_data cf = false /\ exists s, name = s ++ lit ".json").
(** The extension of this page is left out. *)
Definition stripped (cf : config) (name : text) (pc : parsed) (stem : text) : Prop :=
  cf_strip cf = true /\ name <> lit "index.html" /\ pc <> PIgnored /\ name = stem ++ lit ".html".

(** The entries a save makes for a node in [dir], in order: a directory ([None]) or a file. *)
Inductive saves (cf : config) : path -> node -> list (path * option bytes) -> Prop :=
| sv_hidden dir name b pc meta src : hidden cf name -> saves cf dir (NFile name b pc meta src) []
| sv_page dir name stem b pc meta src : ~ hidden cf name -> stripped cf name pc stem -> plain stem ->
    saves cf dir (NFile name b pc meta src) [(dir ++ [stem], None); (dir ++ [stem; lit "index.html"], Some b)]
| sv_nameless dir name stem b pc meta src : ~ hidden cf name -> stripped cf name pc stem -> stem = [] \/ stem = [c_dot] ->
    saves cf dir (NFile name b pc meta src) [(dir, None); (dir ++ [lit "index.html"], Some b)]
| sv_file dir name b pc meta src : ~ hidden cf name -> (forall stem, ~ stripped cf name pc stem) -> plain name ->
    saves cf dir (NFile name b pc meta src) [(dir ++ [name], Some b)]
| sv_dir dir name ch src l : plain name -> saves_all cf (dir ++ [name]) ch l ->
    saves cf dir (NDir name ch src) ((dir ++ [name], None) :: l)
with saves_all (cf : config) : path -> list node -> list (path * option bytes) -> Prop :=
| sa_nil dir : saves_all cf dir [] []
| sa_cons dir c ch l l' : saves cf dir c l -> saves_all cf dir ch l' -> saves_all cf dir (c :: ch) (l ++ l').

(** The file that is at [q] in the end. *)
Definition last_file (l : list (path * option bytes)) (q : path) (b : bytes) : Prop :=
  exists l1 l2, l = l1 ++ (q, Some b) :: l2 /\ forall b', ~ In (q, Some b') l2.
(** The directory at [p] consists of the entries [l]. *)
Definition exactly (p : path) (l : list (path * option bytes)) (d : ent) : Prop := forall q,
  (forall b, what (p ++ q) d = KFile b <-> last_file l q b) /\
  (what (p ++ q) d = KDir <-> q = [] \/ (In (q, None) l /\ forall b, ~ In (q, Some b) l)) /\
  what (p ++ q) d <> KOther.

(** Names that a save resolves inside the output directory. *)
Definition tame (cf : config) (n : node) : Prop :=
  match n with
  | NDir name _ _ => plain name
  | NFile name _ pc _ _ => plain name /\ (forall stem, stripped cf name pc stem -> stem <> [c_dot; c_dot])
  end.
Definition tame_tree (cf : config) (out : node) : Prop :=
  forall ch c n, n_children out = Some ch -> In c ch -> inside n c -> tame cf n.

(** No path is both a file and a directory. *)
Definition no_clash (l : list (path * option bytes)) : Prop := forall q b, In (q, Some b) l -> ~ In (q, None) l.
(** No two files have the same path. *)
Definition no_overwrite (l : list (path * option bytes)) : Prop :=
  forall l1 q b l2 b', l = l1 ++ (q, Some b) :: l2 -> ~ In (q, Some b') (l1 ++ l2).

(** ** Projects on a disk *)

(** Every name below an entry is as wanted. *)
Inductive all_names (P : text -> Prop) : ent -> Prop :=
| al_file b : all_names P (EFile b)
| al_other : all_names P EOther
| al_dir l : Forall (fun e => P (fst e) /\ all_names P (snd e)) l -> all_names P (EDir l).
(** Names of a content directory that stay inside the output directory. *)
Definition inward (n : text) : Prop := plain n /\ n <> lit "...html" /\ n <> lit "...md".
Definition names_at (P : text -> Prop) (p : path) (d : ent) : Prop := forall e, lookup p d = Some e -> all_names P e.
