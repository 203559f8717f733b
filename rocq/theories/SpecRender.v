(** SpecRender.v -- what a properly nested template prints, by structural recursion on its blocks:
    no stack of frames, no token positions. *)

From Coq Require Import String List NArith ZArith Bool.
From Verif Require Import Text Utf8 Json Base Syntax Parse Tree Interp.
Import ListNotations.

(** Scopes: lists of bindings, the innermost first. *)
Definition scopes := list (list (text * value)).
Definition sections := list (text * bytes).

(** What a plugin function does: print bytes and bind variables in the innermost scope, or fail. *)
Definition behaviour := loc -> scopes -> sections -> res process_error (bytes * list (text * value)).

(** Conditions of the conditional blocks. *)
Inductive test := TDefined (v : text) | TCompare (c : cmp) (a b : input).

(** Templates as trees of blocks; a location for each tag. *)
Inductive item :=
| ILeaf (t : ltoken)
| IPlugin (l : loc) (p : plugin_fn) (beh : behaviour)
| ISection (l : loc) (label : text) (custom : bool) (body : list item) (record : bool) (l' : loc)
| IFor (l : loc) (f : for_fn) (body : list item) (l' : loc)
| IIf (l : loc) (c : test) (yes : list item) (l' : loc)
| IIfElse (l : loc) (c : test) (yes : list item) (le : loc) (no : list item) (l' : loc).

(** The tags of a template, in order. *)
Definition test_fn (c : test) : func := match c with TDefined v => FIfDefined v | TCompare c a b => FIf c a b end.
Definition test_name (c : test) : text := match c with TDefined _ => lit "ifdefined" | TCompare c _ _ => cmp_name c end.
Definition section_end (label : text) (record : bool) : func :=
  if record then FEnd label true else FEnd (lit "begin") false.
Fixpoint flat (i : item) : list ltoken :=
  match i with
  | ILeaf t => [t]
  | IPlugin l p _ => [LTok (TFun (FPlugin p)) l]
  | ISection l label custom body record l' =>
      LTok (TFun (FBegin label custom)) l :: flat_map flat body ++ [LTok (TFun (section_end label record)) l']
  | IFor l f body l' => LTok (TFun (FFor f)) l :: flat_map flat body ++ [LTok (TFun (FEnd (lit "for") false)) l']
  | IIf l c yes l' => LTok (TFun (test_fn c)) l :: flat_map flat yes ++ [LTok (TFun (FEnd (test_name c) false)) l']
  | IIfElse l c yes le no l' =>
      LTok (TFun (test_fn c)) l :: flat_map flat yes ++ LTok (TFun FElse) le :: flat_map flat no ++
      [LTok (TFun (FEnd (test_name c) false)) l']
  end.

(** Tags that are not part of a block. *)
Definition is_leaf (t : token) : bool :=
  match t with
  | TRaw _ | TVar _ => true
  | TFun (FDate _ _) | TFun (FExcerpt _ _) | TFun (FImport _ _) | TFun (FInsert _) | TFun (FTime _) => true
  | _ => false
  end.
Definition is_block (i : item) : bool :=
  match i with ILeaf _ | IPlugin _ _ _ => false | _ => true end.

(** The state of rendering, and its result: [ROdd] marks the two situations in which the
    interpreter does not follow the block structure (C22, C23). *)
Record rstate := RState { rs_scopes : scopes; rs_secs : sections }.
Inductive rres := RDone (out : bytes) (st : rstate) | RStop (e : traceback process_error) | RPanic (p : panic) | ROdd.

Definition of_vars (vs : list (text * value)) : frame := Frame [] vs [].
Definition frames (sc : scopes) : list frame := map of_vars sc.

Definition text_of (v : text) (sc : scopes) : res process_error text :=
  match get_variable v (frames sc) with
  | None => Err (XE_UndefinedVariable v)
  | Some (VStr x) => Ok x
  | Some _ => Err (XE_InvalidDataType v (lit "string") [])
  end.

(** What a tag outside blocks prints and binds. *)
Definition leaf_effect (h : host) (site : node) (sc : scopes) (secs : sections) (t : token)
  : res process_error (bytes * list (text * value)) :=
  match t with
  | TRaw r => Ok (enc r, [])
  | TVar v => let? x := var_string v (frames sc) in Ok (enc x, [])
  | TFun (FDate v fmt) =>
      match h_date h with
      | None => Err (XE_FeatureNotEnabled (lit "date"))
      | Some d => let? x := text_of v sc in
                  match d x fmt with None => Err XE_InvalidDate | Some y => Ok (enc y, []) end
      end
  | TFun (FExcerpt v n) => let? x := text_of v sc in Ok (enc (excerpt n x), [])
  | TFun (FTime v) => let? x := text_of v sc in Ok (enc (show_N (minutes x)), [])
  | TFun (FImport x file) =>
      match get_at_path site file with
      | Some (NFile _ _ (PJson j) _ _) =>
          match assoc x (hd [] sc) with
          | Some _ => Err (XE_VariableAlreadyExists x)
          | None => Ok ([], [(x, j)])
          end
      | Some (NFile _ _ _ _ _) => Err (XE_InvalidDataType (lit "<file>") (lit "json") [])
      | _ => Err (XE_NotFound file)
      end
  | TFun (FInsert label) =>
      match assoc label secs with None => Err (XE_UndefinedSection label) | Some b => Ok (b, []) end
  | _ => Ok ([], [])
  end.

(** Does the condition hold? *)
Definition holds (c : test) (sc : scopes) : res process_error bool :=
  match c with
  | TDefined v => Ok (match get_variable v (frames sc) with Some VNull | None => false | Some _ => true end)
  | TCompare c a b =>
      let? x := ok_or (eval_input a (frames sc)) (XE_UndefinedVariable (show_input a)) in
      let? y := ok_or (eval_input b (frames sc)) (XE_UndefinedVariable (show_input b)) in
      Ok (cond c x y)
  end.

Definition bind_vars (new : list (text * value)) (sc : scopes) : scopes :=
  match sc with [] => [] | vs :: r => (vs ++ new) :: r end.

(** One thing after another. *)
Definition rthen (r : rres) (k : rstate -> rres) : rres :=
  match r with
  | RDone o st => match k st with RDone o' st' => RDone (o ++ o') st' | x => x end
  | x => x
  end.
Definition rseq {A} (f : A -> rstate -> rres) : list A -> rstate -> rres :=
  fix go (l : list A) (st : rstate) : rres :=
    match l with [] => RDone [] st | i :: l' => rthen (f i st) (go l') end.
(** In a new innermost scope, which ends with it. *)
Definition rscope (vs : list (text * value)) (k : rstate -> rres) (st : rstate) : rres :=
  match k (RState (vs :: rs_scopes st) (rs_secs st)) with
  | RDone o st' => RDone o (RState (rs_scopes st) (rs_secs st'))
  | x => x
  end.
Definition reffect (l : loc) (st : rstate) (r : res process_error (bytes * list (text * value))) : rres :=
  match r with
  | Ok (o, new) => RDone o (RState (bind_vars new (rs_scopes st)) (rs_secs st))
  | Err e => RStop (tb l e)
  | Panic p => RPanic p
  | OutOfFuel => ROdd
  end.

Section Render.
  (** [ideal] rendering never gives up; otherwise the result is [ROdd] in those situations. *)
  Variable ideal : bool.
  Variable h : host.
  Variable site : node.

  Fixpoint render (i : item) (st : rstate) : rres :=
    match i with
    | ILeaf t => reffect (t_loc t) st (leaf_effect h site (rs_scopes st) (rs_secs st) (t_inner t))
    | IPlugin l p beh => reffect l st (beh l (rs_scopes st) (rs_secs st))
    | ISection l label custom body record l' =>
        match rscope [] (rseq render body) st with
        | RDone o st' => RDone o (RState (rs_scopes st') (rs_secs st' ++ if record then [(label, o)] else []))
        | x => x
        end
    | IFor l f body l' =>
        match for_values (World h site []) f (frames (rs_scopes st)) with
        | Ok vs =>
            match select f vs with
            | [] => if ideal then RDone [] st else ROdd
            | vs => rseq (fun v => rscope [(ff_var f, v)] (rseq render body)) vs st
            end
        | Err e => RStop (tb l e)
        | Panic p => RPanic p
        | OutOfFuel => ROdd
        end
    | IIf l c yes l' =>
        match holds c (rs_scopes st) with
        | Ok true => rscope [] (rseq render yes) st
        | Ok false => if negb ideal && existsb is_block yes then ROdd else RDone [] st
        | Err e => RStop (tb l e)
        | _ => ROdd
        end
    | IIfElse l c yes le no l' =>
        match holds c (rs_scopes st) with
        | Ok true => rthen (rscope [] (rseq render yes) st)
                       (fun st' => if negb ideal && existsb is_block no then ROdd else RDone [] st')
        | Ok false => if negb ideal && existsb is_block yes then ROdd else rscope [] (rseq render no) st
        | Err e => RStop (tb l e)
        | _ => ROdd
        end
    end.
  Definition render_all : list item -> rstate -> rres := rseq render.
End Render.

(** The interpreter asks for the names of the functions in a conditional (C57): that of a plugin
    function is there, and is none of those it looks for. *)
Definition named (p : plugin_fn) : Prop := exists n, pf_name p = Some n /\ n <> lit "else" /\ n <> lit "end".
(** A plugin function with the given behaviour. *)
Definition acts (p : plugin_fn) (beh : behaviour) : Prop :=
  forall l s f r, sc_stack s = f :: r ->
    pf_exec p l s =
    match beh l (map fr_vars (sc_stack s)) (sc_secs s) with
    | Ok (o, new) => Ok (Scope (sc_idx s) (Frame (fr_name f) (fr_vars f ++ new) (fr_out f ++ o) :: r) (sc_secs s))
    | Err e => Err (tb l e)
    | Panic q => Panic q
    | OutOfFuel => OutOfFuel
    end.
(** The same with a name. *)
Definition behaves (p : plugin_fn) (beh : behaviour) : Prop := named p /\ acts p beh.

(** Leaves are leaves and plugins behave as declared. *)
Fixpoint well_formed (i : item) : Prop :=
  match i with
  | ILeaf t => is_leaf (t_inner t) = true
  | IPlugin _ p beh => behaves p beh
  | ISection _ _ _ body _ _ | IFor _ _ body _ | IIf _ _ body _ => fold_right (fun i P => well_formed i /\ P) True body
  | IIfElse _ _ yes _ no _ =>
      fold_right (fun i P => well_formed i /\ P) True yes /\ fold_right (fun i P => well_formed i /\ P) True no
  end.

(** The plugin functions of a branch have names; those inside a loop need none, and conditionals
    have branches of their own. *)
Fixpoint calm (i : item) : Prop :=
  match i with
  | IPlugin _ p _ => named p
  | ISection _ _ _ body _ _ => fold_right (fun i P => calm i /\ P) True body
  | _ => True
  end.
(** The same, with names only where they are asked for. *)
Fixpoint sane (i : item) : Prop :=
  match i with
  | ILeaf t => is_leaf (t_inner t) = true
  | IPlugin _ p beh => acts p beh
  | ISection _ _ _ body _ _ | IFor _ _ body _ => fold_right (fun i P => sane i /\ P) True body
  | IIf _ _ body _ => fold_right (fun i P => sane i /\ P) True body /\ fold_right (fun i P => calm i /\ P) True body
  | IIfElse _ _ yes _ no _ =>
      (fold_right (fun i P => sane i /\ P) True yes /\ fold_right (fun i P => calm i /\ P) True yes) /\
      fold_right (fun i P => sane i /\ P) True no /\ fold_right (fun i P => calm i /\ P) True no
  end.
