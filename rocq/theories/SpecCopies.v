(** SpecCopies.v -- pages that differ in where they are and what they are called only (C99). *)

From Coq Require Import String List NArith ZArith Bool.
From Verif Require Import Text Utf8 Json Base Syntax Parse Tree Interp Build SpecTree SpecSite SpecAlike.
Import ListNotations.

(** The file [t] of the directory [ks] or, if there is nothing of this name in it, of the closest directory
    around it that has something of this name. *)
Definition closest (e : ent) (t : text) (ks : list text) (b : bytes) : Prop :=
  exists ks1 ks2, ks = ks1 ++ ks2 /\ ent_at e (ks1 ++ [t]) (EFile b) /\
    forall a c x, ks2 = a ++ c -> a <> [] -> ~ ent_at e (ks1 ++ a ++ [t]) x.
(** The same templates for the directory [ks] of [e] and the directory [ks'] of [e']. *)
Definition same_templates_at (e : ent) (ks : list text) (e' : ent) (ks' : list text) : Prop :=
  forall t b, is_template t -> (closest e t ks b <-> closest e' t ks' b).
(** Names of files that are treated alike. *)
Definition same_kind (name name' : text) : Prop :=
  (forall x, has_ext name x <-> has_ext name' x) /\ ~ is_template name /\ ~ is_template name'.
(** Plugins that do not look at where a tag or a file is. *)
Definition placeless (ps : list plugin) : Prop := steady (fun _ _ => True) None ps.
