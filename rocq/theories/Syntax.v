(** Syntax.v -- scopes, functions and tokens; parsing of raw arguments and of the arguments of
    each built-in function (parse/function.rs, functions/). *)

From Coq Require Import String List NArith ZArith Bool.
From Verif Require Import Text Json Base.
Import ListNotations.
Local Open Scope N_scope.

(** [StackFrame], process/stack.rs:9-16. *)
Record frame := Frame { fr_name : text; fr_vars : list (text * value); fr_out : bytes }.

(** The mutable part of [Scope], process/mod.rs:20-41: the index of the token iterator
    (process/iter.rs:6-11), the stack (top first) and the sections.  The token list and the
    processor are constant during a run and kept outside. *)
Record scope := Scope { sc_idx : nat; sc_stack : list frame; sc_secs : list (text * bytes) }.

(** Location of a token, parse/mod.rs:25-34. *)
Record loc := Loc { l_path : path; l_line : N; l_col : N }.

(** [LocatableToken::traceback], parse/mod.rs:49-56. *)
Definition tb {K} (l : loc) (k : K) : traceback K := TB (l_path l) (l_line l) (l_col l) k.

(** [RawArgument] and [RawFunction], parse/function.rs:11-31. *)
Inductive rawarg := AVar (s : text) | AStr (s : text) | AIdent (s : text) | AInt (z : Z).

(** What a function of a JavaScript plugin is: the context of the plugin, which holds what its code
    keeps between calls, the name and the arguments; [JSFunction], stuart/src/plugins/js/mod.rs:36-43.
    Only State.v looks at it. *)
Record pcall := PCall { pc_ctx : N; pc_name : text; pc_args : list rawarg }.

(** A plugin-provided [dyn Function], functions/mod.rs:77-83.  [pf_name = None] means that calling
    [name()] panics (stuart/src/plugins/js/mod.rs:176).  [execute] is an arbitrary function of
    the mutable scope; it receives the location of the current token; what else it may read (the
    token list, the processor) is constant during a run and so part of the closure. *)
Record plugin_fn := PluginFn {
  pf_name : option text;
  pf_exec : loc -> scope -> res (traceback process_error) scope;
  pf_call : option pcall
}.

(** [Input], functions/mod.rs:87-94. *)
Inductive input := IVar (v : text) | IStr (s : text) | IInt (z : Z).

(** The functions generated by [if_parsers!], functions/mod.rs:31-38. *)
Inductive cmp := CEq | CNe | CGt | CGe | CLt | CLe.

(** [ForFunctionSourceType], functions/parsers/for.rs:27-31. *)
Inductive for_source := SrcDir | SrcJson | SrcVar.

(** [ForFunction], functions/parsers/for.rs:16-24; [ff_desc] is [SortOrder::Desc]. *)
Record for_fn := ForFn {
  ff_var : text; ff_src : text; ff_type : for_source;
  ff_skip : option N; ff_limit : option N; ff_sort : option text; ff_desc : bool
}.

(** The executable functions: functions/parsers/*.rs and plugins. *)
(** E.g. functions/parsers/for.rs:16-24, functions/mod.rs:77-83. *)
Inductive func :=
| FBegin (label : text) (custom : bool)      (* begin.rs:11-15 *)
| FDate (var fmt : text)                     (* dateformat.rs:11-14 *)
| FElse                                      (* else.rs:10 *)
| FEnd (label : text) (custom : bool)        (* end.rs:10-13 *)
| FExcerpt (var : text) (len : N)            (* excerpt.rs:10-13 *)
| FFor (f : for_fn)
| FIfDefined (var : text)                    (* ifdefined.rs:13-15 *)
| FImport (var file : text)                  (* import.rs:13-16 *)
| FInsert (label : text)                     (* insert.rs:10-12 *)
| FTime (var : text)                         (* timetoread.rs:12-14 *)
| FIf (c : cmp) (a b : input)                (* if.rs:9-12 *)
| FPlugin (f : plugin_fn).

(** [Token], parse/mod.rs:38-45. *)
Inductive token := TRaw (s : text) | TFun (f : func) | TVar (v : text).
(** [LocatableToken], parse/mod.rs:25-34. *)
Record ltoken := LTok { t_inner : token; t_loc : loc }.

(** [RawFunction], parse/function.rs:11-18. *)
Record rawfn := RawFn { rf_name : text; rf_pos : list rawarg; rf_named : list (text * rawarg) }.

(** Built-in names, in the order of lib.rs:33-50 ([name()] of each functions/parsers/*.rs). *)
Inductive builtin :=
| Bbegin | Bdateformat | Belse | Bend | Bexcerpt | Bfor | Bifdefined | Bimport | Binsert
| Btimetoread | Bif (c : cmp).
(** The names given to the macro [if_parsers!], functions/mod.rs:31-38. *)
Definition cmp_name (c : cmp) : text :=   (* functions/mod.rs:32-37 *)
  match c with
  | CEq => lit "ifeq" | CNe => lit "ifne" | CGt => lit "ifgt"
  | CGe => lit "ifge" | CLt => lit "iflt" | CLe => lit "ifle"
  end.
(** [FunctionParser::name], functions/mod.rs:60, of each functions/parsers/*.rs. *)
Definition builtin_name (b : builtin) : text :=
  match b with
  | Bbegin => lit "begin" | Bdateformat => lit "dateformat" | Belse => lit "else"
  | Bend => lit "end" | Bexcerpt => lit "excerpt" | Bfor => lit "for"
  | Bifdefined => lit "ifdefined" | Bimport => lit "import" | Binsert => lit "insert"
  | Btimetoread => lit "timetoread" | Bif c => cmp_name c
  end.
(** [define_functions!], lib.rs:33-50. *)
Definition function_parsers : list builtin :=   (* lib.rs:33-50 *)
  [Bbegin; Bdateformat; Belse; Bend; Bexcerpt; Bfor; Bifdefined; Bimport; Binsert; Btimetoread;
   Bif CEq; Bif CNe; Bif CGt; Bif CGe; Bif CLt; Bif CLe].

(** [is_ident], functions/mod.rs:180-182. *)
Definition is_ident (s : text) : bool := existsb (fun b => text_eqb (builtin_name b) s) function_parsers.

(** The character class of variable names, parse/mod.rs:155 and parse/function.rs:43. *)
Definition var_char (ext : char -> bool) (c : char) : bool :=
  is_alnum ext c || (c =? c_under) || (c =? c_dot).
(** The character class of function names, parse/mod.rs:170. *)
Definition fun_char (ext : char -> bool) (c : char) : bool :=
  is_alnum ext c || (c =? c_under) || (c =? c_colon).
(** The character class of argument names, parse/mod.rs:212. *)
Definition arg_char (ext : char -> bool) (c : char) : bool :=
  is_alnum ext c || (c =? c_under).

(** [RawArgument::parse], parse/function.rs:35-72. *)
Definition rawarg_parse (ext : char -> bool) (arg : text) : res parse_error rawarg :=
  match strip_prefix [c_dollar] arg with
  | Some v => if forallb (var_char ext) v then Ok (AVar v) else Err (PE_InvalidVariableName v)
  | None =>
      if starts_with [c_quote] arg && ends_with [c_quote] arg then
        match strip_prefix [c_quote] arg with
        | None => Panic Pn_strip_suffix_quote
        | Some r =>
            match strip_suffix [c_quote] r with
            | None => Panic Pn_strip_suffix_quote
            | Some s => if contains_char c_quote s then Err PE_GenericSyntaxError else Ok (AStr s)
            end
        end
      else
        match parse_i32 arg with
        | Some z => Ok (AInt z)
        | None => if is_ident arg then Ok (AIdent arg) else Err PE_GenericSyntaxError
        end
  end.

(** [RawArgument::as_variable] etc., parse/function.rs:75-104. *)
Definition as_variable (a : rawarg) : option text := match a with AVar s => Some s | _ => None end.
(** parse/function.rs:83-88. *)
Definition as_string (a : rawarg) : option text := match a with AStr s => Some s | _ => None end.
(** parse/function.rs:99-104. *)
Definition as_integer (a : rawarg) : option Z := match a with AInt z => Some z | _ => None end.

(** [quiet_assert!], functions/mod.rs:167-176. *)
Definition quiet_assert (b : bool) : res parse_error unit := if b then Ok tt else Err PE_AssertionError.
(** The condition [raw.named_args.is_empty()], e.g. insert.rs:21. *)
Definition named_empty (r : rawfn) : bool := match rf_named r with [] => true | _ => false end.

(** [i32::try_into::<usize>] (for.rs:80-84,91-95; excerpt.rs:28-32). *)
Definition to_usize (z : Z) : option N := if (z <? 0)%Z then None else Some (Z.to_N z).

(** begin.rs:22-37 and end.rs:20-35: the label and whether it is a string. *)
Definition parse_label (mk : text -> bool -> func) (r : rawfn) : res parse_error func :=
  match rf_pos r with
  | [a] =>
      let? _ := quiet_assert (named_empty r) in
      match a with
      | AStr l => Ok (mk l true)
      | AIdent l => Ok (mk l false)
      | _ => Err PE_InvalidArgument
      end
  | _ => Err PE_AssertionError
  end.

(** dateformat.rs:21-39 and import.rs:23-41: a variable and a string. *)
Definition parse_var_str (mk : text -> text -> func) (r : rawfn) : res parse_error func :=
  match rf_pos r with
  | [a; b] =>
      let? _ := quiet_assert (named_empty r) in
      let? v := ok_or (as_variable a) PE_InvalidArgument in
      let? s := ok_or (as_string b) PE_InvalidArgument in
      Ok (mk v s)
  | _ => Err PE_AssertionError
  end.

(** ifdefined.rs:22-33 and timetoread.rs:21-32: one variable. *)
Definition parse_var (mk : text -> func) (r : rawfn) : res parse_error func :=
  match rf_pos r with
  | [a] =>
      let? _ := quiet_assert (named_empty r) in
      let? v := ok_or (as_variable a) PE_InvalidArgument in
      Ok (mk v)
  | _ => Err PE_AssertionError
  end.

(** insert.rs:19-30. *)
Definition parse_insert (r : rawfn) : res parse_error func :=
  match rf_pos r with
  | [a] =>
      let? _ := quiet_assert (named_empty r) in
      let? s := ok_or (as_string a) PE_InvalidArgument in
      Ok (FInsert s)
  | _ => Err PE_AssertionError
  end.

(** else.rs:17-22. *)
Definition parse_else (r : rawfn) : res parse_error func :=
  match rf_pos r with
  | [] => let? _ := quiet_assert (named_empty r) in Ok FElse
  | _ => Err PE_AssertionError
  end.

(** excerpt.rs:20-38. *)
Definition parse_excerpt (r : rawfn) : res parse_error func :=
  match rf_pos r with
  | [a; b] =>
      let? _ := quiet_assert (named_empty r) in
      let? v := ok_or (as_variable a) PE_InvalidArgument in
      let? z := ok_or (as_integer b) PE_InvalidArgument in
      let? n := ok_or (to_usize z) PE_InvalidArgument in
      Ok (FExcerpt v n)
  | _ => Err PE_AssertionError
  end.

(** if.rs:23-35: conversion of an argument; [Ident] is rejected. *)
Definition to_input (a : rawarg) : res parse_error input :=
  match a with
  | AVar v => Ok (IVar v)
  | AStr s => Ok (IStr s)
  | AInt z => Ok (IInt z)
  | AIdent _ => Err PE_InvalidArgument
  end.
(** if.rs:19-38. *)
Definition parse_if (c : cmp) (r : rawfn) : res parse_error func :=
  match rf_pos r with
  | [a; b] =>
      let? _ := quiet_assert (named_empty r) in
      let? i2 := to_input b in
      let? i1 := to_input a in
      Ok (FIf c i1 i2)
  | _ => Err PE_AssertionError
  end.

(** One iteration of the loop over named arguments, for.rs:74-113. *)
Definition for_named (f : for_fn) (na : text * rawarg) : res parse_error for_fn :=
  let (name, arg) := na in
  if text_eqb name (lit "skip") then
    match as_integer arg with
    | None => Err PE_AssertionError
    | Some z =>
        match ff_skip f with
        | Some _ => Err PE_AssertionError
        | None => let? n := ok_or (to_usize z) PE_InvalidArgument in
                  Ok (ForFn (ff_var f) (ff_src f) (ff_type f) (Some n) (ff_limit f) (ff_sort f) (ff_desc f))
        end
    end
  else if text_eqb name (lit "limit") then
    match as_integer arg with
    | None => Err PE_AssertionError
    | Some z =>
        match ff_limit f with
        | Some _ => Err PE_AssertionError
        | None => let? n := ok_or (to_usize z) PE_InvalidArgument in
                  Ok (ForFn (ff_var f) (ff_src f) (ff_type f) (ff_skip f) (Some n) (ff_sort f) (ff_desc f))
        end
    end
  else if text_eqb name (lit "sortby") then
    match as_variable arg with
    | None => Err PE_AssertionError
    | Some v =>
        match ff_sort f with
        | Some _ => Err PE_AssertionError
        | None => Ok (ForFn (ff_var f) (ff_src f) (ff_type f) (ff_skip f) (ff_limit f) (Some v) (ff_desc f))
        end
    end
  else if text_eqb name (lit "order") then
    match as_string arg with
    | Some s =>
        if text_eqb s (lit "asc") then
          Ok (ForFn (ff_var f) (ff_src f) (ff_type f) (ff_skip f) (ff_limit f) (ff_sort f) false)
        else if text_eqb s (lit "desc") then
          Ok (ForFn (ff_var f) (ff_src f) (ff_type f) (ff_skip f) (ff_limit f) (ff_sort f) true)
        else Err PE_InvalidArgument
    | None => Err PE_InvalidArgument
    end
  else Err PE_InvalidArgument.
(** for.rs:74-113. *)
Fixpoint for_named_all (f : for_fn) (l : list (text * rawarg)) : res parse_error for_fn :=
  match l with
  | [] => Ok f
  | na :: l' => let? f' := for_named f na in for_named_all f' l'
  end.

(** [ForParser::parse], for.rs:44-124. *)
Definition parse_for (r : rawfn) : res parse_error func :=
  match rf_pos r with
  | [a; b] =>
      let? v := ok_or (as_variable a) PE_InvalidArgument in
      let? st :=
        match b with
        | AStr s =>
            if ends_with (lit ".json") s then Ok (s, SrcJson)
            else if ends_with [c_slash] s then Ok (s, SrcDir)
            else Err PE_InvalidArgument
        | AVar s => Ok (s, SrcVar)
        | _ => Err PE_InvalidArgument
        end in
      let? f := for_named_all (ForFn v (fst st) (snd st) None None None false) (rf_named r) in
      Ok (FFor f)
  | _ => Err PE_AssertionError
  end.

(** [FunctionParser::parse] of each built-in.
    functions/mod.rs:63 and the functions cited above. *)
Definition builtin_parse (b : builtin) (r : rawfn) : res parse_error func :=
  match b with
  | Bbegin => parse_label FBegin r
  | Bdateformat => parse_var_str FDate r
  | Belse => parse_else r
  | Bend => parse_label FEnd r
  | Bexcerpt => parse_excerpt r
  | Bfor => parse_for r
  | Bifdefined => parse_var FIfDefined r
  | Bimport => parse_var_str FImport r
  | Binsert => parse_insert r
  | Btimetoread => parse_var FTime r
  | Bif c => parse_if c r
  end.

(** [Function::name] of each function; [None]: the call panics.
    functions/mod.rs:77-83; the panic is stuart/src/plugins/js/mod.rs:175-177. *)
Definition func_name (f : func) : option text :=
  match f with
  | FBegin _ _ => Some (lit "begin")
  | FDate _ _ => Some (lit "dateformat")
  | FElse => Some (lit "else")
  | FEnd _ _ => Some (lit "end")
  | FExcerpt _ _ => Some (lit "excerpt")
  | FFor _ => Some (lit "for")
  | FIfDefined _ => Some (lit "ifdefined")
  | FImport _ _ => Some (lit "import")
  | FInsert _ => Some (lit "insert")
  | FTime _ => Some (lit "timetoread")
  | FIf c _ _ => Some (cmp_name c)
  | FPlugin p => pf_name p
  end.

(** A plugin's function parser ([dyn FunctionParser], functions/mod.rs:56-71): a name and an
    arbitrary parse result. *)
Record plugin_parser := PluginParser {
  pp_name : text;
  pp_parse : rawfn -> parse_error + plugin_fn
}.
