(** SpecState.v -- plugins that keep state (C96): the calls of a run and what they are answered. *)

From Coq Require Import String List NArith ZArith Bool.
From Verif Require Import Text Utf8 Json Base Syntax Tree Interp Build Js State.
Import ListNotations.

(** A call: of which function, at which place, with which scope; and the answer. *)
Record call := Call { ca_fn : plugin_fn; ca_loc : loc; ca_scope : scope; ca_answer : xres scope }.

(** As before, and the calls are noted. *)
Definition recording {X} (beh : behaviour X) : behaviour (X * list call) := fun p l s xg =>
  let (x1, a) := beh p l s (fst xg) in ((x1, snd xg ++ [Call p l s a]), a).
(** The plugin functions answer with the answers of the list, one after the other. *)
Definition scripted : behaviour (list call) := fun p l s q =>
  match q with
  | [] => ([], OutOfFuel)
  | c :: q' => (q', ca_answer c)
  end.

(** A function of the context [c]. *)
Definition in_context (c : N) (p : plugin_fn) : Prop := exists n args, pf_call p = Some (PCall c n args).
(** Whatever else is kept: with [y] kept in the context [c], the function has this answer and keeps [y']. *)
Definition answers {Y} (code : N -> text -> option (sjs_code Y)) (c : N) (y : Y) (p : plugin_fn) (l : loc) (s : scope)
    (a : xres scope) (y' : Y) : Prop :=
  forall x : contexts Y, x c = y -> exists x', js_behaviour code p l s x = (x', a) /\ x' c = y'.
(** The calls of functions of the context [c], made alone and with [y] to begin with, have these answers
    and leave [y']; calls of other functions do not matter. *)
Inductive replays {Y} (code : N -> text -> option (sjs_code Y)) (c : N) : Y -> list call -> Y -> Prop :=
| rp_none y : replays code c y [] y
| rp_other y p l s a q y' : ~ in_context c p -> replays code c y q y' -> replays code c y (Call p l s a :: q) y'
| rp_call y p l s a y1 q y' : in_context c p -> answers code c y p l s a y1 -> replays code c y1 q y' ->
    replays code c y (Call p l s a :: q) y'.

(** Something done with plugin functions of whatever behaviour: it depends on the functions through the answers to
    its calls only, and in each context these are the answers, and what is kept at the end is what is kept, when the
    calls of that context are made alone. *)
Definition call_by_call {Y A} (code : N -> text -> option (sjs_code Y)) (does : forall X, behaviour X -> st X A) : Prop :=
  forall x, exists calls x' result,
    does _ (js_behaviour code) x = (x', result) /\
    does _ (recording (js_behaviour code)) (x, []) = ((x', calls), result) /\
    does _ scripted calls = ([], result) /\
    forall c, replays code c (x c) calls (x' c).

(** What a builder may have been used for, with what the plugins then keep. *)
Inductive used {X} (beh : behaviour X) (c : config) (ps : list plugin) : X -> stuart -> Prop :=
| us_new x : used beh c ps x (stuart_new c ps)
| us_build x b h osenv mode d : used beh c ps x b ->
    used beh c ps (fst (sbuild beh h osenv mode d b x)) (fst (snd (sbuild beh h osenv mode d b x)))
| us_merge x b n : used beh c ps x b -> used beh c ps x (fst (merge_output n b)).
(** The page of that name among the entries of the output. *)
Definition page_of (k : text) (r : stuart * res error unit) : option bytes :=
  match snd r, st_output (fst r) with
  | Ok tt, Some (NDir _ ch _) =>
      match find (fun n => text_eqb (n_name n) k) ch with Some (NFile _ b _ _ _) => Some b | _ => None end
  | _, _ => None
  end.
