(** SpecSound.v -- templates without a loop inside a loop (C20, C22, C23). *)

From Coq Require Import List Bool.
From Verif Require Import Syntax SpecRender.
Import ListNotations.

(** A loop somewhere in an item. *)
Fixpoint has_loop (i : item) : bool :=
  match i with
  | ILeaf _ | IPlugin _ _ _ => false
  | ISection _ _ _ body _ _ | IIf _ _ body _ => existsb has_loop body
  | IIfElse _ _ yes _ no _ => existsb has_loop yes || existsb has_loop no
  | IFor _ _ _ _ => true
  end.
(** No loop is inside another loop. *)
Fixpoint loops_apart (i : item) : bool :=
  match i with
  | ILeaf _ | IPlugin _ _ _ => true
  | ISection _ _ _ body _ _ | IIf _ _ body _ => forallb loops_apart body
  | IIfElse _ _ yes _ no _ => forallb loops_apart yes && forallb loops_apart no
  | IFor _ _ body _ => negb (existsb has_loop body)
  end.
