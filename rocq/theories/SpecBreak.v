(** SpecBreak.v -- specification: the texts on which the parser breaks down (C04).  A call, behind tags
    that are in order, whose last argument is a lone opening quotation mark. *)

From Coq Require Import String List NArith Bool.
From Verif Require Import Text Base Syntax SpecTemplate SpecGrammar.
Import ListNotations.
Local Open Scope N_scope.

(** The unfinished argument: a quotation mark, with or without a name. *)
Inductive lone_quote (ext : char -> bool) : option text -> text -> Prop :=
| lq_pos : lone_quote ext None [c_quote]
| lq_named n : n <> [] -> forallb (arg_point ext) n = true -> lone_quote ext (Some n) (n ++ [c_eq] ++ [c_quote]).
(** The text from the parenthesis of a call to the end of the file: the arguments [l], the unfinished
    argument with the name [o], and blanks. *)
Inductive open_args (ext : char -> bool) (o : option text) : list parg -> text -> Prop :=
| oa_here w1 q w2 : blank w1 -> blank w2 -> lone_quote ext o q -> open_args ext o [] (w1 ++ q ++ w2)
| oa_skip w l t : blank w -> open_args ext o l t -> open_args ext o l (w ++ [c_comma] ++ t)
| oa_more w1 a p w2 l t : blank w1 -> blank w2 -> parg_text a p -> open_args ext o l t ->
    open_args ext o (a :: l) (w1 ++ p ++ w2 ++ [c_comma] ++ t).
(** The text from the opening braces of a tag to the end of the file. *)
Definition open_call (ext : char -> bool) (t : text) : Prop :=
  exists w1 name w2 pos named o u, t = w1 ++ name ++ w2 ++ [c_lparen] ++ u /\ blank w1 /\ blank w2 /\
    name <> [] /\ forallb (fun_point ext) name = true /\
    Forall (parg_ok ext) (pargs pos named) /\ open_args ext o (pargs pos named) u /\ (o = None -> named = []).
Inductive breaks (ext : char -> bool) (plugins : list (text * list plugin_parser)) : text -> Prop :=
| br_here t s rest : first_tag t s rest -> open_call ext rest -> breaks ext plugins t
| br_later t s g k w1 b w2 t' : first_tag t s (w1 ++ b ++ w2 ++ close_tag ++ t') -> blank w1 -> blank w2 ->
    loose_tag ext g b -> denotes plugins g k -> breaks ext plugins t' -> breaks ext plugins t.
