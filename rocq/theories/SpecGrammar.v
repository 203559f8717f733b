(** SpecGrammar.v -- specification: the texts that are templates, all of them, and the tokens they
    stand for.  [SpecTemplate] gives one way of writing each template; this file gives every way. *)

From Coq Require Import String List NArith Bool.
From Verif Require Import Text Base Syntax SpecTemplate.
Import ListNotations.
Local Open Scope N_scope.

Definition begins (p t : text) : Prop := exists r, t = p ++ r.
(** A pair of opening braces behind a backslash. *)
Definition escaped_tag : text := [c_bslash; c_lbrace; c_lbrace].

(** [no_tag t raw]: no tag is opened in [t], and [raw] is [t] without the backslashes of the
    escaped pairs. *)
Inductive no_tag : text -> text -> Prop :=
| nt_nil : no_tag [] []
| nt_char c t raw : ~ begins open_tag (c :: t) -> ~ begins escaped_tag (c :: t) -> no_tag t raw ->
    no_tag (c :: t) (c :: raw)
| nt_escaped t raw : ~ begins [c_lbrace] t -> no_tag t raw ->
    no_tag (escaped_tag ++ t) (open_tag ++ raw).

(** [first_tag t raw rest]: the first tag opened in [t] is followed by [rest], and the text before it
    reads [raw].  After an escaped pair, a third opening brace opens a tag with the second one. *)
Inductive first_tag : text -> text -> text -> Prop :=
| ft_open rest : first_tag (open_tag ++ rest) [] rest
| ft_char c t raw rest : ~ begins open_tag (c :: t) -> ~ begins escaped_tag (c :: t) ->
    first_tag t raw rest -> first_tag (c :: t) (c :: raw) rest
| ft_escaped t raw rest : ~ begins [c_lbrace] t -> first_tag t raw rest ->
    first_tag (escaped_tag ++ t) (open_tag ++ raw) rest
| ft_third rest : first_tag (escaped_tag ++ [c_lbrace] ++ rest) [c_lbrace] rest.

(** The text between the parentheses of a call: arguments separated by commas; nothing but blanks
    between two commas is no argument. *)
Inductive loose_args : list parg -> text -> Prop :=
| la_end w : blank w -> loose_args [] w
| la_last w1 a p w2 : blank w1 -> blank w2 -> parg_text a p -> loose_args [a] (w1 ++ p ++ w2)
| la_skip w l t : blank w -> loose_args l t -> loose_args l (w ++ [c_comma] ++ t)
| la_more w1 a p w2 l t : blank w1 -> blank w2 -> parg_text a p -> loose_args l t ->
    loose_args (a :: l) (w1 ++ p ++ w2 ++ [c_comma] ++ t).

Inductive loose_tag (ext : char -> bool) : tag -> text -> Prop :=
| lt_var v : v <> [] -> forallb (var_point ext) v = true -> loose_tag ext (GVar v) (c_dollar :: v)
| lt_call name w pos named t :
    name <> [] -> forallb (fun_point ext) name = true -> blank w ->
    Forall (parg_ok ext) (pargs pos named) -> loose_args (pargs pos named) t ->
    loose_tag ext (GCall name pos named) (name ++ w ++ [c_lparen] ++ t ++ [c_rparen]).

(** [loose_template ext l r t]: the text [t] is made of the raw texts and tags [l] and of the final
    raw text [r]. *)
Inductive loose_template (ext : char -> bool) : list (text * tag) -> text -> text -> Prop :=
| lm_end t r : no_tag t r -> loose_template ext [] r t
| lm_tag t s g w1 b w2 l r t' : first_tag t s (w1 ++ b ++ w2 ++ close_tag ++ t') ->
    blank w1 -> blank w2 -> loose_tag ext g b -> loose_template ext l r t' ->
    loose_template ext ((s, g) :: l) r t.

(** [means ext plugins t ks]: the text [t] is a template with tokens [ks]. *)
Definition means (ext : char -> bool) (plugins : list (text * list plugin_parser)) (t : text)
    (ks : list token) : Prop :=
  exists l r, loose_template ext l r t /\ template_tokens plugins l r ks.

(** A tag that can be written. *)
Definition tag_ok (ext : char -> bool) (g : tag) : Prop :=
  match g with
  | GVar v => v <> [] /\ forallb (var_point ext) v = true
  | GCall name pos named => name <> [] /\ forallb (fun_point ext) name = true /\ Forall (parg_ok ext) (pargs pos named)
  end.
Definition ends_in_backslash (t : text) : Prop := exists u, t = u ++ [c_bslash].
