(** SpecJoinIf.v -- blocks that leave no variable behind (C91). *)

From Coq Require Import List.
From Verif Require Import Syntax SpecSite.
Import ListNotations.

(** Neither an import nor a plugin function, which may set variables. *)
Definition binds_nothing (b : block) : Prop :=
  match b with BImport _ _ | BPlugin _ => False | _ => True end.
