(** SpecKeys.v -- data and front matter whose fields are the same, in any order (C105). *)

From Coq Require Import String List NArith ZArith Bool.
From Verif Require Import Text Utf8 Json Base Syntax Parse Tree Interp Build SpecScope SpecUtf8 SpecTree SpecSite SpecAlike.
Import ListNotations.

(** Values that are the same but for the order of the fields of objects: each field of the one, which is
    what the first of its bindings says, is a field of the other. *)
Inductive same_value : value -> value -> Prop :=
| sv_same v : same_value v v
| sv_array l l' : Forall2 same_value l l' -> same_value (VArr l) (VArr l')
| sv_object l l' : (forall k v, first_binding k l v -> exists v', first_binding k l' v' /\ same_value v v') ->
    (forall k v', first_binding k l' v' -> exists v, first_binding k l v /\ same_value v v') -> same_value (VObj l) (VObj l').
Definition same_fields (l l' : list (text * text)) : Prop := forall k v, first_binding k l v <-> first_binding k l' v.

(** A source file with the same fields: data files, and posts with the same body. *)
Inductive file_fields (h : host) (name : text) : bytes -> bytes -> Prop :=
| ff_same b : file_fields h name b b
| ff_data b b' t t' : has_ext name (lit "json") -> utf8_text b t -> utf8_text b' t' -> like_opt same_value (h_json h t) (h_json h t') ->
    file_fields h name b b'
| ff_post b b' t t' fm fm' body : has_ext name (lit "md") -> utf8_text b t -> utf8_text b' t' -> md_parts t fm body -> md_parts t' fm' body ->
    same_fields fm fm' -> file_fields h name b b'.
Inductive sources_fields (h : host) : text -> ent -> ent -> Prop :=
| sf_file name b b' : file_fields h name b b' -> sources_fields h name (EFile b) (EFile b')
| sf_dir name l l' : Forall2 (fun x x' => fst x' = fst x /\ sources_fields h (fst x) (snd x) (snd x')) l l' ->
    sources_fields h name (EDir l) (EDir l')
| sf_other name : sources_fields h name EOther EOther.

(** What is recorded about a file: the same, but for the order of fields. *)
Inductive same_record : option value -> option value -> Prop :=
| sr_same m : same_record m m
| sr_value k v v' : same_value v v' -> same_record (Some (VObj [(lit "type", VStr k); (lit "value", v)])) (Some (VObj [(lit "type", VStr k); (lit "value", v')])).
(** What comes out: the same, but for the contents of data files, which are those of the sources, and for
    the order of fields in metadata. *)
Inductive output_fields : node -> node -> Prop :=
| of_file name b b' pc meta meta' src : b' = b \/ has_ext name (lit "json") -> same_record meta meta' ->
    output_fields (NFile name b pc meta src) (NFile name b' pc meta' src)
| of_dir name ch ch' src : Forall2 output_fields ch ch' -> output_fields (NDir name ch src) (NDir name ch' src).

(** ** Plugins that do not mind *)
Definition frame_fields (f f' : frame) : Prop := fr_name f' = fr_name f /\ fr_out f' = fr_out f /\
  Forall2 (fun b b' => fst b' = fst b /\ same_value (snd b) (snd b')) (fr_vars f) (fr_vars f').
Definition scope_fields (s s' : scope) : Prop :=
  sc_idx s' = sc_idx s /\ sc_secs s' = sc_secs s /\ Forall2 frame_fields (sc_stack s) (sc_stack s').
(** Functions that do the same whatever the order of the fields of the variables. *)
Definition orderless (f : plugin_fn) : Prop := forall l s s', scope_fields s s' -> both eq scope_fields (pf_exec f l s) (pf_exec f l s').
