(** SpecUtf8.v -- texts, values, scopes and sites made of Unicode scalar values (C32).  In Rust
    these hold by the types: a [String] is a sequence of scalar values. *)

From Coq Require Import String List NArith ZArith Bool.
From Verif Require Import Text Json Base Syntax Parse Tree SpecScope.
From Verif Require Export SpecChars.
Import ListNotations.
Local Open Scope N_scope.

(** Unicode scalar values: all code points but the surrogates. *)
Definition scalars (t : text) : Prop := Forall (fun c => c < 55296 \/ (57344 <= c /\ c < 1114112)) t.
(** Bytes that are valid UTF-8. *)
Definition utf8 (b : bytes) : Prop := exists t, utf8_text b t.

(** The order of byte strings. *)
Fixpoint bytes_ltb (a b : bytes) : bool :=
  match a, b with
  | _, [] => false
  | [], _ :: _ => true
  | x :: a', y :: b' => if x <? y then true else if y <? x then false else bytes_ltb a' b'
  end.

(** All strings of the value. *)
Inductive scalar_value : value -> Prop :=
| sv_null : scalar_value VNull
| sv_bool b : scalar_value (VBool b)
| sv_num f : scalar_value (VNum f)
| sv_str t : scalars t -> scalar_value (VStr t)
| sv_arr l : Forall scalar_value l -> scalar_value (VArr l)
| sv_obj l : Forall (fun kv => scalar_value (snd kv)) l -> scalar_value (VObj l).

Definition scalar_frame (f : frame) : Prop :=
  Forall (fun kv => scalar_value (snd kv)) (fr_vars f) /\ utf8 (fr_out f).
Definition scalar_scope (s : scope) : Prop :=
  Forall scalar_frame (sc_stack s) /\ Forall (fun kv => utf8 (snd kv)) (sc_secs s).

Definition scalar_markdown (m : markdown) : Prop :=
  Forall (fun kv => scalars (snd kv)) (md_front m) /\ scalars (md_string m) /\
  match md_html m with Some t => scalars t | None => True end.
(** All strings of the tree that a template can read. *)
Definition scalar_site (n : node) : Prop :=
  (forall name b v meta src, inside (NFile name b (PJson v) meta src) n -> scalar_value v) /\
  (forall name b m meta src, inside (NFile name b (PMarkdown m) meta src) n -> scalar_markdown m).

Definition scalar_plugin (p : plugin_fn) : Prop :=
  forall l s s', scalar_scope s -> pf_exec p l s = Ok s' -> scalar_scope s'.
(** A call whose texts are made of scalar values, and plugins whose functions keep to them if called so. *)
Definition scalar_arg (a : rawarg) : Prop := match a with AVar t | AStr t | AIdent t => scalars t | AInt _ => True end.
Definition scalar_call (r : rawfn) : Prop := scalars (rf_name r) /\ Forall scalar_arg (rf_pos r) /\
  Forall (fun na => scalars (fst na) /\ scalar_arg (snd na)) (rf_named r).
Definition scalar_plugins (ps : list plugin) : Prop :=
  forall pl f raw g, In pl ps -> In f (pl_fns pl) -> scalar_call raw -> pp_parse f raw = inr g -> scalar_plugin g.
Definition scalar_token (t : ltoken) : Prop :=
  match t_inner t with
  | TRaw r => scalars r
  | TFun (FPlugin p) => scalar_plugin p
  | _ => True
  end.
(** The external functions return strings. *)
Definition scalar_host (h : host) : Prop :=
  (forall t, scalars t -> scalars (h_md h t)) /\
  (forall d x f t, h_date h = Some d -> scalars x -> d x f = Some t -> scalars t) /\
  (forall t v, h_json h t = Some v -> scalar_value v).
