(** SpecExact.v -- sites whose templates are made of blocks, with no loop inside a loop, and whose
    plugin functions print and bind variables (C90). *)

From Coq Require Import String List NArith Bool.
From Verif Require Import Text Base Syntax Parse Tree Build Js SpecChars SpecTree SpecMarkdown SpecUtf8 SpecGrammar SpecRender SpecSite.
Import ListNotations.

(** A loop somewhere in a block. *)
Fixpoint loop_in (b : block) : bool :=
  match b with
  | BSection _ body | BIf _ body => existsb loop_in body
  | BIfElse _ yes no => existsb loop_in yes || existsb loop_in no
  | BFor _ _ => true
  | _ => false
  end.
(** No loop inside another one. *)
Fixpoint single_loops (b : block) : bool :=
  match b with
  | BSection _ body | BIf _ body => forallb single_loops body
  | BIfElse _ yes no => forallb single_loops yes && forallb single_loops no
  | BFor _ body => negb (existsb loop_in body)
  | _ => true
  end.

(** A plugin function that prints, binds variables in the innermost scope, or fails, and whose
    success does not depend on where its tag stands; the texts it binds are made of scalar values.  It
    may have no name, as those written in JavaScript; [else] and [end] are taken. *)
Definition tame (p : plugin_fn) : Prop := pf_name p <> Some (lit "else") /\ pf_name p <> Some (lit "end") /\ exists beh, acts p beh /\
  (forall l l' sc secs x, beh l sc secs = Ok x -> beh l' sc secs = Ok x) /\
  (forall l sc secs o new, Forall (Forall (fun kv => scalar_value (snd kv))) sc -> beh l sc secs = Ok (o, new) -> Forall (fun kv => scalar_value (snd kv)) new).
(** The functions called directly in a conditional have names (C57). *)
Fixpoint careful (b : block) : Prop :=
  match b with
  | BIf _ yes => Forall named_calls yes /\ fold_right (fun b P => careful b /\ P) True yes
  | BIfElse _ yes no => Forall named_calls yes /\ Forall named_calls no /\
      fold_right (fun b P => careful b /\ P) True yes /\ fold_right (fun b P => careful b /\ P) True no
  | BSection _ body | BFor _ body => fold_right (fun b P => careful b /\ P) True body
  | _ => True
  end.
(** No loop is inside another one, and the plugin functions that are called are tame. *)
Definition orderly (l : list block) : Prop :=
  forallb single_loops l = true /\ Forall careful l /\ forall p, In (TFun (FPlugin p)) (flat_map tags l) -> tame p.

(** The template of a file: a page is one, the body of a markdown file is one. *)
Definition template_text (name t s : text) : Prop :=
  (has_ext name (lit "html") /\ s = t) \/ (has_ext name (lit "md") /\ exists fm, md_parts t fm s).
(** The templates of the site that are templates at all are made of blocks, in that way. *)
Definition laid_out (h : host) (ps : list plugin) (content : ent) : Prop :=
  forall ks name b t s ts, ent_at content (ks ++ [name]) (EFile b) -> utf8_text b t -> template_text name t s ->
    SpecGrammar.means (h_ext h) (map (fun p => (pl_name p, pl_fns p)) ps) s ts ->
    exists l, ts = flat_map tags l /\ orderly l.

(** All this of a site, for plugins that only add functions; the texts of the environment, of the
    plugins and of the renderer are made of Unicode scalar values, as all texts of Rust are. *)
Definition plain_site (h : host) (ps : list plugin) (osenv : list (text * text)) (mode : text) (content : ent) : Prop :=
  ent_distinct content /\ laid_out h ps content /\ flat_map pl_parsers ps = [] /\
  scalar_host h /\ scalar_plugins ps /\ Forall (fun kv => scalars (snd kv)) osenv /\ scalars mode.

(** Values of JavaScript whose strings are made of scalar values, and programs that set variables to
    such values and return such a text if the values they are given are such. *)
Inductive scalar_js : jsv -> Prop :=
| sj_undef : scalar_js JsUndef
| sj_null : scalar_js JsNull
| sj_bool b : scalar_js (JsBool b)
| sj_num x : scalar_js (JsNum x)
| sj_str t : scalars t -> scalar_js (JsStr t)
| sj_arr l : Forall scalar_js l -> scalar_js (JsArr l)
| sj_obj l : Forall (fun kv => scalar_js (snd kv)) l -> scalar_js (JsObj l)
| sj_other : scalar_js JsOther.
Inductive scalar_prog : js_prog -> Prop :=
| sp_return t : (forall x, t = Some x -> scalars x) -> scalar_prog (JsReturn t)
| sp_get n k : (forall v, scalar_js v -> scalar_prog (k v)) -> scalar_prog (JsGet n k)
| sp_set n v p : scalar_js v -> scalar_prog p -> scalar_prog (JsSet n v p).
