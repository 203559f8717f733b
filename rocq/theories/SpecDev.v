(** SpecDev.v -- executions of [stuart dev] and what its output should be (C50 to C53, C58). *)

From Coq Require Import String List NArith ZArith Bool Permutation.
From Verif Require Import Text Utf8 Json Base Dev SpecChars SpecLocation SpecMarkdown.
Import ListNotations.

(** The changes that are passed over: of what is in the directories [dist] and [temp] of the project, and
    of files called [stuart.toml].  Paths are relative to the project. *)
Inductive passed : path -> Prop :=
| pd_dist q : passed (lit "dist" :: q)
| pd_temp q : passed (lit "temp" :: q)
| pd_manifest q : passed (q ++ [lit "stuart.toml"]).

Section Runs.
Context {Src : Type}.
(** Executions and the steps made, in order. *)
Inductive dev_run (result : Src -> outcome) (own : Src -> list path) : list label -> dev Src -> dev Src -> Prop :=
| dr_nil d : dev_run result own [] d d
| dr_cons a l d d1 d2 : dev_step result own a d d1 -> dev_run result own l d1 d2 -> dev_run result own (a :: l) d d2.
Definition no_edit (a : label) : Prop := forall p, a <> LEdit p.
(** All changes have been delivered and dealt with. *)
Definition quiet (d : dev Src) : Prop := dv_phase d = Idle /\ dv_late d = [] /\ dv_queue d = [].
Definition alive (d : dev Src) : Prop := dv_phase d <> Dead.
(** An event that starts a build is on its way or in the channel. *)
Definition awaited (d : dev Src) : Prop := exists o p, In (o, p) (dv_late d ++ dv_queue d) /\ ~ passed p.
(** The states that builds are started from, in order. *)
Inductive starts (result : Src -> outcome) (own : Src -> list path) : dev Src -> list Src -> dev Src -> Prop :=
| ss_nil d : starts result own d [] d
| ss_build o d d1 l d2 : dev_step result own (LBuild o) d d1 -> starts result own d1 l d2 -> starts result own d (dv_src d :: l) d2
| ss_other a d d1 l d2 : dev_step result own a d d1 -> (forall o, a <> LBuild o) -> starts result own d1 l d2 -> starts result own d l d2.
Definition busy (d : dev Src) : Prop := exists s, dv_phase d = Booting s \/ dv_phase d = Building s.
(** The last of the states that builds. *)
Definition last_success (result : Src -> outcome) (l : list Src) (r : option Src) : Prop :=
  (r = None /\ Forall (fun s => result s <> Built) l) \/
  exists l1 s l2, r = Some s /\ l = l1 ++ s :: l2 /\ result s = Built /\ Forall (fun s => result s <> Built) l2.
(** A step that is not a change by the user. *)
Definition moves (result : Src -> outcome) (own : Src -> list path) (d d' : dev Src) : Prop :=
  exists a, no_edit a /\ dev_step result own a d d'.
(** No build causes an event that starts one. *)
Definition own_passed (own : Src -> list path) : Prop := forall s p, In p (own s) -> passed p.
(** Numbers of changes and of builds in an execution. *)
Fixpoint edits (l : list label) : nat :=
  match l with [] => 0 | LEdit _ :: l' => S (edits l') | _ :: l' => edits l' end.
Fixpoint builds (l : list label) : nat :=
  match l with [] => 0 | LBuild _ :: l' => S (builds l') | _ :: l' => builds l' end.
End Runs.

(** The first occurrence of [needle] in [b] is after [a]. *)
Definition first_occurrence (needle a c b : bytes) : Prop :=
  b = a ++ needle ++ c /\ forall a' c', b = a' ++ needle ++ c' -> (length a <= length a')%nat.

(** The place an error is reported at. *)
Definition place (file : text) (line col : N) (t : text) : Prop :=
  exists l c, numeral l line /\ canonical l /\ numeral c col /\ canonical c /\ t = file ++ lit ":" ++ l ++ lit ":" ++ c.
(** A report with the line [l] of the source and a marker under it, [o] characters from its start, and one
    without.  The bars are below each other. *)
Definition with_preview (file : text) (line col : N) (msg : list text) (help : option text) (l : text) (o : nat) (rep : list text) : Prop :=
  exists p n pad, place file line col p /\ numeral n line /\ canonical n /\ pad = repeat 32%N (length n) /\
  rep = msg ++ [lit "  --> " ++ p;
                pad ++ lit " |";
                n ++ lit " | " ++ l;
                pad ++ lit " | " ++ repeat 32%N o ++ lit "^^^ error occurred here";
                pad ++ lit " |"] ++ match help with Some h => [pad ++ lit " = help: " ++ h] | None => [] end.
Definition without_preview (file : text) (line col : N) (msg : list text) (help : option text) (rep : list text) : Prop :=
  exists p, place file line col p /\
  rep = msg ++ (lit "  at " ++ p) :: match help with Some h => [lit "  help: " ++ h] | None => [] end.

(** ** Markers *)
(** Every CR is part of a line end. *)
Definition usual_ends (t : text) : Prop := forall a b, t = a ++ c_cr :: b -> exists b', b = c_lf :: b'.
(** [rep] shows the line of the text [t] that the character after [q] is in, with the marker under that
    character, or under the end of the line if that character is part of its end. *)
Definition marks (t q : text) (file : text) (msg : list text) (help : option text) (rep : list text) : Prop :=
  exists ls cur l l' r first col o, text_lines ls t /\ last_line_is q l first /\ (l = l' \/ l = l' ++ [c_cr]) /\
    nth_error ls (N.to_nat (newlines q)) = Some cur /\ cur = l' ++ r /\
    with_preview file (1 + newlines q) col msg help cur o rep /\ o <= length l' <= o + 2.
