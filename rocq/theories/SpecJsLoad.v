(** SpecJsLoad.v -- what a JavaScript plugin is meant to be. *)

From Coq Require Import String List NArith ZArith Bool.
From Verif Require Import Text Utf8 Json Base Syntax Tree Interp Js JsLoad.
Import ListNotations.

(** A property of an object: the first of that name. *)
Definition prop (l : list (text * jx)) (k : text) (v : jx) : Prop :=
  exists a b, l = a ++ (k, v) :: b /\ ~ In k (map fst a).
(** An object or a function, with these properties. *)
Definition object (e : jx) (l : list (text * jx)) : Prop := e = XObj l \/ exists c, e = XFun c l.
(** [{ name: "...", fn: function }]. *)
Definition entry (e : jx) (nc : text * js_code) : Prop :=
  exists l lf, object e l /\ prop l (lit "name") (XStr (fst nc)) /\ prop l (lit "fn") (XFun (snd nc) lf).
(** [export default { name: "...", version: "...", functions: [ ... ] }]. *)
Definition describes (e : jx) (name version : text) (fs : list (text * js_code)) : Prop :=
  exists l js, object e l /\ prop l (lit "name") (XStr name) /\ prop l (lit "version") (XStr version) /\
    prop l (lit "functions") (XArr js) /\ Forall2 entry js fs.
(** A function parser of that name whose calls run that code. *)
Definition provides (pp : plugin_parser) (nc : text * js_code) : Prop :=
  pp_name pp = fst nc /\
  forall r, exists p, pp_parse pp r = inr p /\ pf_name p = None /\
    forall l s, pf_exec p l s = js_exec (snd nc) (rf_pos r) l s.
(** The last entry of that name. *)
Definition last_of (fs : list (text * js_code)) (n : text) (c : js_code) : Prop :=
  exists a b, fs = a ++ (n, c) :: b /\ ~ In n (map fst b).
(** Neither undefined nor null. *)
Definition nothing (v : jx) : Prop := v = XUndef \/ v = XNull.
