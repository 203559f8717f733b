(** Base.v -- error types (stuart-core/src/error.rs) and results. *)

From Coq Require Import List NArith ZArith Bool.
From Verif Require Import Text.
Import ListNotations.

(** A [PathBuf]: the components of an absolute path (used only to locate errors).
    The [path] of error.rs:24-35 and the [source] of fs/mod.rs:37,46. *)
Definition path := list text.

(** [ParseError], error.rs:50-75.  The payload of [AssertionError] (the stringified condition)
    is not modelled. *)
Inductive parse_error :=
| PE_UnexpectedEOF
| PE_Expected (s : text)
| PE_InvalidVariableName (s : text)
| PE_InvalidFunctionName (s : text)
| PE_InvalidArgument
| PE_NonexistentFunction (s : text)
| PE_GenericSyntaxError
| PE_PositionalArgAfterNamedArg
| PE_InvalidFrontmatter
| PE_InvalidJson
| PE_AssertionError.

(** [ProcessError], error.rs:77-118. *)
Inductive process_error :=
| XE_MissingHtmlRoot
| XE_MissingMarkdownRoot
| XE_StackError
| XE_EndWithoutBegin
| XE_ElseWithoutIf
| XE_NotJsonArray
| XE_InvalidDate
| XE_UnexpectedEndOfFile
| XE_FeatureNotEnabled (s : text)
| XE_VariableAlreadyExists (s : text)
| XE_UndefinedVariable (s : text)
| XE_UndefinedSection (s : text)
| XE_NullError (s : text)
| XE_NotFound (s : text)
| XE_InvalidDataType (variable expected found : text).

(** [TracebackError<T>], error.rs:24-35. [u32] positions are unbounded here: a file would need
    2^32 lines or columns to overflow them. *)
Record traceback (K : Type) := TB { tb_path : path; tb_line : N; tb_col : N; tb_kind : K }.
Arguments TB {K}. Arguments tb_path {K}. Arguments tb_line {K}. Arguments tb_col {K}.
Arguments tb_kind {K}.

(** [FsError], error.rs:37-48. *)
Inductive fs_error :=
| FE_NotFound (p : path)
| FE_Read
| FE_Write
| FE_Conflict (a b : path).

(** [Error], error.rs:6-22. *)
Inductive error :=
| E_Fs (e : fs_error)
| E_Parse (e : traceback parse_error)
| E_Process (e : traceback process_error)
| E_Plugin (s : text)
| E_NotBuilt
| E_MetadataNotEnabled.

(** The places where the modelled Rust code can panic.
    Each with the file and line, e.g. parse/function.rs:52. *)
Inductive panic :=
| Pn_strip_suffix_quote   (* parse/function.rs:52   strip_suffix(quote).unwrap() *)
| Pn_unreachable          (* parse/mod.rs:234       unreachable!() *)
| Pn_md_html_none         (* parse/markdown.rs:109  self.html.as_ref().unwrap() *)
| Pn_last_mut             (* process/mod.rs:280,326 scope.stack.last_mut().unwrap() *)
| Pn_current              (* functions/parsers/..   scope.tokens.current().unwrap() *)
| Pn_pop                  (* process/mod.rs:139,212 stack.pop().unwrap() *)
| Pn_no_base              (* process/mod.rs:102,.. processor.base.as_ref().unwrap() *)
| Pn_no_input             (* functions/parsers/for.rs:141, import.rs:56 input.as_ref().unwrap() *)
| Pn_strip_md             (* process/mod.rs:209     strip_suffix(.md).unwrap() *)
| Pn_contents             (* process/mod.rs:76      self.contents().unwrap() *)
| Pn_js_name              (* stuart/src/plugins/js/mod.rs:176 todo!() *)
| Pn_meta_object          (* fs/mod.rs:413          json.as_object().unwrap() *)
| Pn_merge                (* fs/mod.rs:327          panic!() *)
| Pn_save                 (* fs/mod.rs:276          panic!() *)
| Pn_children             (* lib.rs:163             children().unwrap() *)
| Pn_line                 (* stuart/src/error.rs:100 self.line as usize - 1, checked arithmetic *)
| Pn_plugin.              (* a panic inside a plugin *)

(** [Result] with panics and exhausted fuel as explicit outcomes.
    The [Result]s of error.rs:6-118. *)
Inductive res (E A : Type) :=
| Ok (a : A)
| Err (e : E)
| Panic (p : panic)
| OutOfFuel.
Arguments Ok {E A}. Arguments Err {E A}. Arguments Panic {E A}. Arguments OutOfFuel {E A}.

(** The [?] operator. E.g. parse/mod.rs:120-121. *)
Definition bind {E A B} (r : res E A) (f : A -> res E B) : res E B :=
  match r with Ok a => f a | Err e => Err e | Panic p => Panic p | OutOfFuel => OutOfFuel end.
(** [let x = r?; k], e.g. parse/mod.rs:120-121. *)
Notation "'let?' x := r 'in' k" := (bind r (fun x => k))
  (at level 200, x pattern, r at level 100, k at level 200, right associativity).

(** [Result::map_err]. E.g. parse/mod.rs:218,227,251,265, process/mod.rs:59,62,64. *)
Definition map_err {E F A} (f : E -> F) (r : res E A) : res F A :=
  match r with Ok a => Ok a | Err e => Err (f e) | Panic p => Panic p | OutOfFuel => OutOfFuel end.

(** [iter.map(f).collect::<Result<Vec<_>, _>>()]: left to right, stops at the first error.
    Used at fs/mod.rs:185, lib.rs:219. *)
Definition map_res {E A B} (f : A -> res E B) : list A -> res E (list B) :=
  fix go (l : list A) : res E (list B) :=
    match l with
    | [] => Ok []
    | x :: l' => let? y := f x in let? r := go l' in Ok (y :: r)
    end.

(** [Option::ok_or]. E.g. process/mod.rs:94,151,158,367, lib.rs:176. *)
Definition ok_or {E A} (o : option A) (e : E) : res E A :=
  match o with Some a => Ok a | None => Err e end.
