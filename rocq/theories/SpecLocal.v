(** SpecLocal.v -- which files a page of the site is made from (C72). *)

From Coq Require Import String List NArith ZArith Bool.
From Verif Require Import Text Base Tree SpecTree SpecSite.
Import ListNotations.

(** ** What templates can ask for *)

(** [data_part e d]: [d] is the directory [e] without the files that are neither markdown nor JSON. *)
Inductive data_part : ent -> ent -> Prop :=
| dp_file b : data_part (EFile b) (EFile b)
| dp_other : data_part EOther EOther
| dp_dir l l' : data_parts l l' -> data_part (EDir l) (EDir l')
with data_parts : list (text * ent) -> list (text * ent) -> Prop :=
| ds_nil : data_parts [] []
| ds_drop k b l l' : ~ has_ext k (lit "md") -> ~ has_ext k (lit "json") -> data_parts l l' -> data_parts ((k, EFile b) :: l) l'
| ds_keep k b l l' : has_ext k (lit "md") \/ has_ext k (lit "json") -> data_parts l l' ->
    data_parts ((k, EFile b) :: l) ((k, EFile b) :: l')
| ds_down k e e' l l' : (forall b, e <> EFile b) -> data_part e e' -> data_parts l l' -> data_parts ((k, e) :: l) ((k, e') :: l').

(** The two directories have the same directories, markdown files and JSON files. *)
Definition same_data (e e' : ent) : Prop := exists d, data_part e d /\ data_part e' d.

(** The directory [ks] and those around it have the same files called [root.html] and [md.html]. *)
Definition same_templates (e e' : ent) (ks : list text) : Prop :=
  forall ks1 ks2 t b, ks = ks1 ++ ks2 -> is_template t -> (ent_at e (ks1 ++ [t]) (EFile b) <-> ent_at e' (ks1 ++ [t]) (EFile b)).

(** ** Pages *)

(** The site has in the directory [ks] a file [name] with the bytes [o], made from the file [src]. *)
Definition page_from (out : node) (ks : list text) (src : path) (name : text) (o : bytes) : Prop :=
  exists p meta, at_names out (ks ++ [name]) (NFile name o p meta src).

(** [e'] is [e] with other contents in the file [name] of the directory [ks]. *)
Inductive edited : list text -> text -> ent -> ent -> Prop :=
| ed_here name b b' l1 l2 : edited [] name (EDir (l1 ++ (name, EFile b) :: l2)) (EDir (l1 ++ (name, EFile b') :: l2))
| ed_below k ks name e e' l1 l2 : edited ks name e e' -> edited (k :: ks) name (EDir (l1 ++ (k, e) :: l2)) (EDir (l1 ++ (k, e') :: l2)).
