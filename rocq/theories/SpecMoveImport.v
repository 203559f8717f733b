(** SpecMoveImport.v -- blocks over which an import may be moved (C91). *)

From Coq Require Import List.
From Verif Require Import Text Syntax SpecSite SpecShare SpecJoinIf.
Import ListNotations.

(** The block has nothing to do with the variable [x], calls no plugin function, and is not an
    import.  Inside sections, loops and conditionals there may be imports of other variables. *)
Definition without (x : text) (b : block) : Prop := binds_nothing b /\ shared x [] b b.
