(** SpecSRender.v -- what a properly nested template prints when plugin functions keep state (C96): as
    SpecRender.v, with the state handed on from each call to the next one in the order of rendering. *)

From Coq Require Import String List NArith ZArith Bool.
From Verif Require Import Text Utf8 Json Base Syntax Parse Tree Interp State SpecRender.
Import ListNotations.

Section Render.
  Context {X : Type}.
  (** What the plugin functions do, with what is kept, as a function of the variables and sections. *)
  Variable does : plugin_fn -> loc -> scopes -> sections -> X -> X * res process_error (bytes * list (text * value)).

  (** One thing after another. *)
  Definition srthen (r : X * rres) (k : rstate -> X -> X * rres) : X * rres :=
    match snd r with
    | RDone o st => let (x, r2) := k st (fst r) in (x, match r2 with RDone o' st' => RDone (o ++ o') st' | y => y end)
    | _ => r
    end.
  Definition srseq {A} (f : A -> rstate -> X -> X * rres) : list A -> rstate -> X -> X * rres :=
    fix go (l : list A) (st : rstate) (x : X) : X * rres :=
      match l with [] => (x, RDone [] st) | i :: l' => srthen (f i st x) (go l') end.
  (** In a new innermost scope, which ends with it. *)
  Definition srscope (vs : list (text * value)) (k : rstate -> X -> X * rres) (st : rstate) (x : X) : X * rres :=
    let (x', r) := k (RState (vs :: rs_scopes st) (rs_secs st)) x in
    (x', match r with RDone o st' => RDone o (RState (rs_scopes st) (rs_secs st')) | y => y end).

  Variable ideal : bool.
  Variable h : host.
  Variable site : node.
  Fixpoint srender (i : item) (st : rstate) (x : X) : X * rres :=
    match i with
    | ILeaf t => (x, reffect (t_loc t) st (leaf_effect h site (rs_scopes st) (rs_secs st) (t_inner t)))
    | IPlugin l p _ => let (x', r) := does p l (rs_scopes st) (rs_secs st) x in (x', reffect l st r)
    | ISection l label custom body record l' =>
        let (x', r) := srscope [] (srseq srender body) st x in
        (x', match r with
             | RDone o st' => RDone o (RState (rs_scopes st') (rs_secs st' ++ if record then [(label, o)] else []))
             | y => y
             end)
    | IFor l f body l' =>
        match for_values (World h site []) f (frames (rs_scopes st)) with
        | Ok vs =>
            match select f vs with
            | [] => (x, if ideal then RDone [] st else ROdd)
            | vs => srseq (fun v => srscope [(ff_var f, v)] (srseq srender body)) vs st x
            end
        | Err e => (x, RStop (tb l e))
        | Panic p => (x, RPanic p)
        | OutOfFuel => (x, ROdd)
        end
    | IIf l c yes l' =>
        match holds c (rs_scopes st) with
        | Ok true => srscope [] (srseq srender yes) st x
        | Ok false => (x, if negb ideal && existsb is_block yes then ROdd else RDone [] st)
        | Err e => (x, RStop (tb l e))
        | _ => (x, ROdd)
        end
    | IIfElse l c yes le no l' =>
        match holds c (rs_scopes st) with
        | Ok true => srthen (srscope [] (srseq srender yes) st x)
                       (fun st' x' => (x', if negb ideal && existsb is_block no then ROdd else RDone [] st'))
        | Ok false => if negb ideal && existsb is_block yes then (x, ROdd) else srscope [] (srseq srender no) st x
        | Err e => (x, RStop (tb l e))
        | _ => (x, ROdd)
        end
    end.
  Definition srender_all : list item -> rstate -> X -> X * rres := srseq srender.

  (** The function does that. *)
  Definition doing (beh : State.behaviour X) (p : plugin_fn) : Prop :=
    forall l s f r x, sc_stack s = f :: r ->
      beh p l s x =
      let (x', e) := does p l (map fr_vars (sc_stack s)) (sc_secs s) x in
      (x', match e with
           | Ok (o, new) => Ok (Scope (sc_idx s) (Frame (fr_name f) (fr_vars f ++ new) (fr_out f ++ o) :: r) (sc_secs s))
           | Err e => Err (tb l e)
           | Panic q => Panic q
           | OutOfFuel => OutOfFuel
           end).
  (** As [sane]. *)
  Fixpoint apt (beh : State.behaviour X) (i : item) : Prop :=
    match i with
    | ILeaf t => is_leaf (t_inner t) = true
    | IPlugin _ p _ => doing beh p
    | ISection _ _ _ body _ _ | IFor _ _ body _ => fold_right (fun i P => apt beh i /\ P) True body
    | IIf _ _ body _ => fold_right (fun i P => apt beh i /\ P) True body /\ fold_right (fun i P => calm i /\ P) True body
    | IIfElse _ _ yes _ no _ =>
        (fold_right (fun i P => apt beh i /\ P) True yes /\ fold_right (fun i P => calm i /\ P) True yes) /\
        fold_right (fun i P => apt beh i /\ P) True no /\ fold_right (fun i P => calm i /\ P) True no
    end.
End Render.

(** What a call of a function of a JavaScript plugin does. *)
Fixpoint sjs_effect {Y} (p : sjs_prog Y) (sc : scopes) : res process_error (list (text * value) * Y * option text) :=
  match p with
  | SReturn y t => Ok ([], y, t)
  | SGet n k => sjs_effect (k (Js.opt_to_js (get_variable n (frames sc)))) sc
  | SSet n v p' =>
      match Js.js_to_json v with
      | Ok None => sjs_effect p' sc
      | Ok (Some j) => let? r := sjs_effect p' (bind_vars [(n, j)] sc) in Ok ((n, j) :: fst (fst r), snd (fst r), snd r)
      | Err _ => OutOfFuel
      | Panic q => Panic q
      | OutOfFuel => OutOfFuel
      end
  end.
(** What functions of plugins do: those of JavaScript plugins find and leave what the module of their own
    plugin keeps; the others ([others]) keep nothing. *)
Definition js_given (sc : scopes) (a : rawarg) : res process_error Js.jsv :=
  match a with
  | AVar n => match get_variable n (frames sc) with Some v => Ok (Js.json_to_js v) | None => Err (XE_UndefinedVariable n) end
  | AStr t => Ok (Js.JsStr t)
  | AInt z => Ok (Js.JsNum (FFin z 0))
  | AIdent _ => Err XE_StackError
  end.
Definition js_does {Y} (code : N -> text -> option (sjs_code Y)) (others : plugin_fn -> SpecRender.behaviour)
    (p : plugin_fn) (l : loc) (sc : scopes) (secs : sections) (x : contexts Y) : contexts Y * res process_error (bytes * list (text * value)) :=
  match pf_call p with
  | None => (x, others p l sc secs)
  | Some c =>
      match map_res (js_given sc) (pc_args c), code (pc_ctx c) (pc_name c) with
      | Ok vs, Some f =>
          match sjs_effect (f (x (pc_ctx c)) vs) sc with
          | Ok (new, y, t) => (fun c' => if N.eqb c' (pc_ctx c) then y else x c', Ok (match t with Some t => enc t | None => [] end, new))
          | Err e => (x, Err e)
          | Panic q => (x, Panic q)
          | OutOfFuel => (x, OutOfFuel)
          end
      | Ok _, None => (x, Panic Pn_plugin)
      | Err e, _ => (x, Err e)
      | Panic q, _ => (x, Panic q)
      | OutOfFuel, _ => (x, OutOfFuel)
      end
  end.
