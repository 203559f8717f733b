(** SpecShipped.v -- what the plugins that come with Stuart are meant to do (C81). *)

From Coq Require Import String List NArith ZArith Bool.
From Verif Require Import Text Utf8 Json Base Syntax Tree Interp Build SpecTree.
Import ListNotations.

(** Files that come from a file with the extension [png]. *)
Definition is_png (src : path) : Prop := has_ext (last src []) (lit "png").
(** The same site with the bytes of the PNG files optimised; [meta]: whether metadata is kept, which
    tells that a plugin has processed the file. *)
Inductive optimised (o : bytes -> text + bytes) (meta : bool) : node -> node -> Prop :=
| op_other name b p m src : ~ is_png src -> optimised o meta (NFile name b p m src) (NFile name b p m src)
| op_png name b b' p src : is_png src -> o b = inr b' ->
    optimised o meta (NFile name b p None src)
      (NFile name b' p (if meta then Some (VObj [(lit "type", VStr (lit "custom"))]) else None) src)
| op_dir name ch ch' src : Forall2 (optimised o meta) ch ch' -> optimised o meta (NDir name ch src) (NDir name ch' src).
(** A build of the directory [d] succeeds and gives [out]. *)
Definition builds (h : host) (osenv : list (text * text)) (mode : text) (d : source_dir) (c : config) (ps : list plugin) (out : node) : Prop :=
  snd (build h osenv mode d (stuart_new c ps)) = Ok tt /\ st_output (fst (build h osenv mode d (stuart_new c ps))) = Some out.
