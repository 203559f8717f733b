(** SpecMarkdown.v -- lines of a text and front matter. *)

From Coq Require Import String List NArith Bool.
From Verif Require Import Text SpecTemplate.
Import ListNotations.
Local Open Scope N_scope.

Definition ends_cr (l : text) : Prop := exists l', l = l' ++ [c_cr].

(** Complete lines: each ended by LF or CRLF. *)
Inductive ended_lines : list text -> text -> Prop :=
| el_nil : ended_lines [] []
| el_lf l ls t : ~ In c_lf l -> ~ ends_cr l -> ended_lines ls t -> ended_lines (l :: ls) (l ++ [c_lf] ++ t)
| el_crlf l ls t : ~ In c_lf l -> ended_lines ls t -> ended_lines (l :: ls) (l ++ [c_cr; c_lf] ++ t).
(** The lines of a text: complete lines and possibly a last one without end. *)
Inductive text_lines : list text -> text -> Prop :=
| tl_ended ls t : ended_lines ls t -> text_lines ls t
| tl_more ls t l : ended_lines ls t -> l <> [] -> ~ In c_lf l -> text_lines (ls ++ [l]) (t ++ l).

(** Lines put together again with LF between them. *)
Fixpoint with_lf (ls : list text) : text :=
  match ls with
  | [] => []
  | [l] => l
  | l :: ls' => l ++ [c_lf] ++ with_lf ls'
  end.

Definition dashes (l : text) : Prop := exists r, l = lit "---" ++ r.

(** No white space at either end. *)
Definition tight (t : text) : Prop :=
  (forall c r, t = c :: r -> white c = false) /\ (forall c r, t = r ++ [c] -> white c = false).

(** A line that is a key and a quoted value. *)
Definition pair_line (kv : text * text) (l : text) : Prop :=
  exists w1 w2 w3 w4, blank w1 /\ blank w2 /\ blank w3 /\ blank w4 /\
    tight (fst kv) /\ ~ In c_colon (fst kv) /\
    l = w1 ++ fst kv ++ w2 ++ [c_colon] ++ w3 ++ [c_quote] ++ snd kv ++ [c_quote] ++ w4.

(** Does the text open a front matter block? *)
Definition opens_front (t : text) : Prop :=
  exists r, t = lit "---" ++ [c_lf] ++ r \/ t = lit "---" ++ [c_cr; c_lf] ++ r.

(** The lines of the front matter block of a text ([] when there is none). *)
Definition front_height (input : text) (fl : list text) : Prop :=
  (~ opens_front input /\ fl = []) \/
  (opens_front input /\ exists fs d, fl = lit "---" :: fs ++ [d] /\ dashes d /\ Forall (fun l => ~ dashes l) fs).
