(** SpecPlace.v -- a project and a copy of it at another place (C85). *)

From Coq Require Import String List NArith ZArith Bool.
From Verif Require Import Text Utf8 Json Base Syntax Parse Tree Interp Build Disk Cli New Report Main SpecScope SpecAlike.
Import ListNotations.

(** Results of builds: the same, up to the paths in errors. *)
Inductive like_result (R : path -> path -> Prop) : cli_result -> cli_result -> Prop :=
| lr_same r : like_result R r r
| lr_error e e' : like_error R e e' -> like_result R (CErr (CE e)) (CErr (CE e'))
| lr_conflict a a' b b' : R a a' -> R b b' -> like_result R (CErr (CE (E_Fs (FE_Conflict a b)))) (CErr (CE (E_Fs (FE_Conflict a' b')))).
(** Scripts that do the same to the project in [p] and to its copy in [p']. *)
Definition portable (p p' : path) (sc sc' : script_oracle) : Prop := forall n x x', lookup p' x' = lookup p x ->
  snd (sc' n x') = snd (sc n x) /\ lookup p' (fst (sc' n x')) = lookup p (fst (sc n x)).
(** Messages: the same, up to the paths in the errors they report. *)
Inductive like_note (R : path -> path -> Prop) : note -> note -> Prop :=
| ln_same n : like_note R n n
| ln_report e e' : like_result R (CErr e) (CErr e') -> like_note R (Report (main_error_of e)) (Report (main_error_of e')).
