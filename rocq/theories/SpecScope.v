(** SpecScope.v -- variables, fields and blocks, independently of how the interpreter works. *)

From Coq Require Import String List NArith ZArith Bool.
From Verif Require Import Text Utf8 Json Base Syntax Parse Tree Interp.
Import ListNotations.

(** ** Lookup *)

(** [x] is the first thing bound to [k]. *)
Definition first_binding {A} (k : text) (l : list (text * A)) (x : A) : Prop :=
  exists l1 l2, l = l1 ++ (k, x) :: l2 /\ ~ In k (map fst l1).

(** [v] is what the innermost scope that binds [k] binds it to. *)
Definition visible (k : text) (st : list frame) (v : value) : Prop :=
  exists inner f outer, st = inner ++ f :: outer /\ first_binding k (fr_vars f) v /\
    Forall (fun g => ~ In k (map fst (fr_vars g))) inner.

(** Decimal numerals, possibly with a plus sign in front. *)
Inductive digits : N -> text -> Prop :=
| dg_one d : (d < 10)%N -> digits d [(48 + d)%N]
| dg_more n t d : digits n t -> (d < 10)%N -> digits (10 * n + d) (t ++ [(48 + d)%N]).
Definition numeral (n : N) (t : text) : Prop := digits n t \/ exists t', t = c_plus :: t' /\ digits n t'.
Definition fits_usize (n : N) : Prop := (n < 2 ^ 64)%N.

(** One field step. *)
Inductive step_to : value -> text -> value -> Prop :=
| st_key l k x : first_binding k l x -> step_to (VObj l) k x
| st_idx l k n x : numeral n k -> fits_usize n -> nth_error l (N.to_nat n) = Some x -> step_to (VArr l) k x.

(** A path of fields; null as soon as a step does not exist. *)
Inductive field : value -> list text -> value -> Prop :=
| fd_here v : field v [] v
| fd_step v k x p y : step_to v k x -> field x p y -> field v (k :: p) y
| fd_null v k p : (forall x, ~ step_to v k x) -> field v (k :: p) VNull.

(** Names joined by dots. *)
Fixpoint dotted (h : text) (p : list text) : text :=
  match p with [] => h | k :: p' => h ++ [c_dot] ++ dotted k p' end.

(** ** Frames *)

(** The frame has only gained: variables after the others, output at the end. *)
Definition grown (f f' : frame) : Prop :=
  fr_name f' = fr_name f /\ (exists vs, fr_vars f' = fr_vars f ++ vs) /\ (exists b, fr_out f' = fr_out f ++ b).
(** The frame has only gained output. *)
Definition printed (f f' : frame) : Prop :=
  fr_name f' = fr_name f /\ fr_vars f' = fr_vars f /\ exists b, fr_out f' = fr_out f ++ b.

(** Names and variables of a stack of frames. *)
Definition bindings (st : list frame) : list (text * list (text * value)) :=
  map (fun f => (fr_name f, fr_vars f)) st.

(** ** Plugins *)

(** A plugin function that works on the innermost scope only, leaves the position alone and
    reports errors at its own tag.  It may still panic. *)
Definition plugin_ok (p : plugin_fn) : Prop := forall l s, sc_stack s <> [] ->
  match pf_exec p l s with
  | Ok s' => sc_idx s' = sc_idx s /\ (exists x, sc_secs s' = sc_secs s ++ x) /\
             exists f f' r, sc_stack s = f :: r /\ sc_stack s' = f' :: r /\ grown f f'
  | Err e => exists k, e = tb l k
  | _ => True
  end.
(** It never panics. *)
Definition plugin_total (p : plugin_fn) : Prop :=
  pf_name p <> None /\
  forall l s, sc_stack s <> [] -> match pf_exec p l s with Panic _ | OutOfFuel => False | _ => True end.

Definition plugins_of (P : plugin_fn -> Prop) (toks : list ltoken) : Prop :=
  forall p l, In (LTok (TFun (FPlugin p)) l) toks -> P p.
Definition no_plugins (toks : list ltoken) : Prop := plugins_of (fun _ => False) toks.

(** ** Which tag can raise which error *)
Definition may_raise (k : process_error) (t : token) : Prop :=
  match t with
  | TFun (FPlugin _) => True
  | _ =>
    match k with
    | XE_MissingHtmlRoot | XE_MissingMarkdownRoot => False
    | XE_StackError | XE_EndWithoutBegin => exists l c, t = TFun (FEnd l c)
    | XE_ElseWithoutIf => t = TFun FElse
    | XE_NotJsonArray => exists f, t = TFun (FFor f)
    | XE_InvalidDate => exists v f, t = TFun (FDate v f)
    | XE_FeatureNotEnabled x => x = lit "date" /\ exists v f, t = TFun (FDate v f)
    | XE_UnexpectedEndOfFile =>
        (exists f, t = TFun (FFor f)) \/ (exists v, t = TFun (FIfDefined v)) \/ exists c a b, t = TFun (FIf c a b)
    | XE_VariableAlreadyExists x => exists f, t = TFun (FImport x f)
    | XE_UndefinedVariable x =>
        t = TVar x \/ (exists n, t = TFun (FExcerpt x n)) \/ (exists f, t = TFun (FDate x f)) \/ t = TFun (FTime x) \/
        exists c a b, t = TFun (FIf c a b) /\ (a = IVar x \/ b = IVar x)
    | XE_UndefinedSection x => t = TFun (FInsert x)
    | XE_NullError x => t = TVar x
    | XE_NotFound x => (exists v, t = TFun (FImport v x)) \/ exists f, t = TFun (FFor f) /\ ff_src f = x /\ ff_type f <> SrcVar
    | XE_InvalidDataType x _ _ =>
        t = TVar x \/ (exists n, t = TFun (FExcerpt x n)) \/ (exists f, t = TFun (FDate x f)) \/ t = TFun (FTime x) \/
        (x = lit "<file>" /\ exists v f, t = TFun (FImport v f))
    end
  end.
(** The error is that of one of the tags, at its location. *)
Definition blamed (toks : list ltoken) (e : traceback process_error) : Prop :=
  exists t, In t toks /\ may_raise (tb_kind e) (t_inner t) /\ e = tb (t_loc t) (tb_kind e).

(** ** Nodes of a tree *)
Inductive inside : node -> node -> Prop :=
| in_here n : inside n n
| in_child m name ch src c : In c ch -> inside m c -> inside m (NDir name ch src).
(** The markdown of the site has been turned into HTML. *)
Definition rendered (n : node) : Prop :=
  forall name b m meta src, inside (NFile name b (PMarkdown m) meta src) n -> md_html m <> None.

(** Every loop of the tags over a directory of the site finds its markdown turned into HTML. *)
Definition loops_ready (site : node) (toks : list ltoken) : Prop :=
  forall f l name ch src file b m meta fsrc, In (LTok (TFun (FFor f)) l) toks -> ff_type f = SrcDir ->
    get_at_path site (ff_src f) = Some (NDir name ch src) -> In (NFile file b (PMarkdown m) meta fsrc) ch -> md_html m <> None.

(** ** Processing tokens one after the other, as long as the stack is higher than [h] *)
Inductive steps (w : world) (h : nat) : scope -> scope -> Prop :=
| steps_none s : steps w h s s
| steps_more n s t s1 s2 s' : (length (sc_stack s) > h)%nat -> next_token w s = Some (t, s1) ->
    exec n w t s1 = Ok s2 -> steps w h s2 s' -> steps w h s s'.
