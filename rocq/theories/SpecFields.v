(** SpecFields.v -- which fields the tags of a site ask for, and sources that differ in no such field (C106). *)

From Coq Require Import String List NArith ZArith Bool.
From Verif Require Import Text Utf8 Json Base Syntax Parse Tree Interp Build.
From Verif Require Import SpecScope SpecUtf8 SpecTree SpecSite SpecBlame SpecAlike.
Import ListNotations.

(** A tag asks for a field if it reads a variable, or sorts by one, with this name after a dot. *)
Inductive asks (t : token) (k : text) : Prop :=
| as_reads x p : ~ In c_dot x -> Forall (fun j => ~ In c_dot j) p -> reads_var t (dotted x p) -> In k p -> asks t k
| as_sorts f x p : t = TFun (FFor f) -> ~ In c_dot x -> Forall (fun j => ~ In c_dot j) p -> ff_sort f = Some (dotted x p) -> In k p -> asks t k.
(** Some file of the directory has a tag that asks for it. *)
Definition asked (h : host) (ps : list plugin) (content : ent) (k : text) : Prop :=
  exists ks body toks t, tagged_text content ks body /\
    SpecGrammar.means (h_ext h) (map (fun p => (pl_name p, pl_fns p)) ps) body toks /\ In t toks /\ asks t k.

Section On.
  (** The fields that count. *)
  Variable P : text -> Prop.

  (** Values that are the same but for other fields of objects, at any depth. *)
  Inductive value_on : value -> value -> Prop :=
  | vo_same v : value_on v v
  | vo_array l l' : Forall2 value_on l l' -> value_on (VArr l) (VArr l')
  | vo_object l l' : (forall k v, P k -> first_binding k l v -> exists v', first_binding k l' v' /\ value_on v v') ->
      (forall k v', P k -> first_binding k l' v' -> exists v, first_binding k l v /\ value_on v v') -> value_on (VObj l) (VObj l').
  Definition fields_on (l l' : list (text * text)) : Prop := forall k v, P k -> (first_binding k l v <-> first_binding k l' v).

  (** The same source file but for other fields: data files, and posts with the same body. *)
  Inductive file_on (h : host) (name : text) : bytes -> bytes -> Prop :=
  | fo_same b : file_on h name b b
  | fo_data b b' t t' : has_ext name (lit "json") -> utf8_text b t -> utf8_text b' t' -> like_opt value_on (h_json h t) (h_json h t') ->
      file_on h name b b'
  | fo_post b b' t t' fm fm' body : has_ext name (lit "md") -> utf8_text b t -> utf8_text b' t' -> md_parts t fm body -> md_parts t' fm' body ->
      fields_on fm fm' -> file_on h name b b'.
  Inductive sources_on (h : host) : text -> ent -> ent -> Prop :=
  | so_file name b b' : file_on h name b b' -> sources_on h name (EFile b) (EFile b')
  | so_dir name l l' : Forall2 (fun x x' => fst x' = fst x /\ sources_on h (fst x) (snd x) (snd x')) l l' ->
      sources_on h name (EDir l) (EDir l')
  | so_other name : sources_on h name EOther EOther.

  (** ** Plugins that do not mind *)
  Definition frame_on (f f' : frame) : Prop := fr_name f' = fr_name f /\ fr_out f' = fr_out f /\
    Forall2 (fun b b' => fst b' = fst b /\ value_on (snd b) (snd b')) (fr_vars f) (fr_vars f').
  Definition scope_on (s s' : scope) : Prop :=
    sc_idx s' = sc_idx s /\ sc_secs s' = sc_secs s /\ Forall2 frame_on (sc_stack s) (sc_stack s').
  (** Functions that do the same whatever the other fields of the variables. *)
  Definition heedless (f : plugin_fn) : Prop := forall l s s', scope_on s s' -> both eq scope_on (pf_exec f l s) (pf_exec f l s').
End On.

(** What is recorded about a file: the same, or data of the same kind. *)
Inductive record_kind : option value -> option value -> Prop :=
| rk_same m : record_kind m m
| rk_value k v v' : record_kind (Some (VObj [(lit "type", VStr k); (lit "value", v)])) (Some (VObj [(lit "type", VStr k); (lit "value", v')])).
(** What comes out: the same, but for the contents of data files, which are those of the sources, and for
    what is recorded about data files and posts. *)
Inductive output_on : node -> node -> Prop :=
| oo_file name b b' pc meta meta' src : b' = b \/ has_ext name (lit "json") -> record_kind meta meta' ->
    output_on (NFile name b pc meta src) (NFile name b' pc meta' src)
| oo_dir name ch ch' src : Forall2 output_on ch ch' -> output_on (NDir name ch src) (NDir name ch' src).
