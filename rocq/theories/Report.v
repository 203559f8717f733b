(** Report.v -- the error reports of the command line program: stuart/src/error.rs. *)

From Coq Require Import String List NArith ZArith Bool.
From Verif Require Import Text Utf8 Json Base Syntax Parse Tree Interp Build Disk Cli Dev.
Import ListNotations.

(** Text in backquotes, the formats of error.rs:186-310. *)
Definition quoted (t : text) : text := [96%N] ++ t ++ [96%N].

(** [display] of [ParseError], error.rs:216-240; [cond] is the condition of a failed assertion,
    which [Base.v] does not keep. *)
Definition parse_msg (cond : text) (e : parse_error) : text :=
  match e with
  | PE_UnexpectedEOF => lit "unexpected end of file"
  | PE_Expected s => lit "expected " ++ quoted s
  | PE_InvalidVariableName s => lit "invalid variable name: " ++ quoted s
  | PE_InvalidFunctionName s => lit "invalid function name: " ++ quoted s
  | PE_InvalidArgument => lit "invalid argument"
  | PE_NonexistentFunction s => lit "function does not exist: " ++ quoted s
  | PE_GenericSyntaxError => lit "syntax error"
  | PE_PositionalArgAfterNamedArg => lit "positional argument after named argument"
  | PE_InvalidFrontmatter => lit "invalid frontmatter"
  | PE_InvalidJson => lit "invalid json"
  | PE_AssertionError => lit "assertion failed: " ++ quoted cond
  end.
(** [help] of [ParseError], error.rs:242-264. *)
Definition parse_help (e : parse_error) : option text :=
  match e with
  | PE_UnexpectedEOF => Some (lit "are you missing a closing command?")
  | PE_Expected s => Some (lit "try adding " ++ quoted s)
  | PE_InvalidVariableName _ =>
      Some (lit "variable names must not be empty and can only contain certain characters")
  | PE_InvalidFunctionName _ =>
      Some (lit "function names must not be empty and can only contain certain characters")
  | PE_PositionalArgAfterNamedArg => Some (lit "place positional arguments before named arguments")
  | _ => None
  end.

(** [display] of [ProcessError], error.rs:268-309. *)
Definition process_msg (e : process_error) : text :=
  match e with
  | XE_MissingHtmlRoot => lit "cannot find `root.html` template"
  | XE_MissingMarkdownRoot => lit "cannot find `md.html` template"
  | XE_StackError => lit "stack error"
  | XE_EndWithoutBegin => lit "no matching `begin` for `end`"
  | XE_ElseWithoutIf => lit "no matching `if` for `else`"
  | XE_NotJsonArray => lit "not a json array"
  | XE_InvalidDate => lit "invalid date"
  | XE_UnexpectedEndOfFile => lit "unexpected end of file"
  | XE_FeatureNotEnabled s => lit "feature not enabled: " ++ quoted s
  | XE_VariableAlreadyExists s => lit "variable already exists: " ++ quoted s
  | XE_UndefinedVariable s => lit "undefined variable: " ++ quoted s
  | XE_UndefinedSection s => lit "undefined section: " ++ quoted s
  | XE_NullError s => lit "null error: " ++ quoted s
  | XE_NotFound s => lit "not found: " ++ quoted s
  | XE_InvalidDataType v e f =>
      if text_eqb f [] then lit "type error in variable " ++ quoted v ++ lit ": expected " ++ quoted e
      else lit "type error in variable " ++ quoted v ++ lit ": expected " ++ quoted e
           ++ lit " but found " ++ quoted f
  end.
(** [help] of [ProcessError], error.rs:311-346. *)
Definition process_help (e : process_error) : option text :=
  match e with
  | XE_MissingHtmlRoot => Some (lit "ensure that your `root.html` template exists and is accessible")
  | XE_MissingMarkdownRoot => Some (lit "ensure that your `md.html` template exists and is accessible")
  | XE_StackError => Some (lit "this shouldn't have happened, please open an issue!")
  | XE_NotJsonArray => Some (lit "only arrays can be used in this context")
  | XE_InvalidDate => Some (lit "ensure the date is valid and the format is correct")
  | XE_FeatureNotEnabled _ => Some (lit "reinstall Stuart with the feature enabled")
  | XE_VariableAlreadyExists _ => Some (lit "variables in Stuart are immutable (for the time being)")
  | XE_NullError _ => Some (lit "if the variable is sometimes null, consider using the `ifdefined` function")
  | _ => None
  end.

(** A path as the system writes it: relative, and from the root. [Path::display] at error.rs:186-191,
    [to_string_lossy] at 91-95. *)
Fixpoint show_rel (p : path) : text :=
  match p with [] => [] | [c] => c | c :: p' => c ++ [c_slash] ++ show_rel p' end.
(** [Path::display] of an absolute path, error.rs:186-191. *)
Definition show_abs (p : path) : text := [c_slash] ++ show_rel p.
(** [strip_prefix] of a path, error.rs:87,180-181. *)
Fixpoint strip_path (pre p : path) : option path :=
  match pre, p with
  | [], _ => Some p
  | a :: pre', b :: p' => if text_eqb a b then strip_path pre' p' else None
  | _ :: _, [] => None
  end.
(** Relative to the working directory where it is inside, error.rs:86-90,177-184. *)
Definition show_path (cwd p : path) : text :=
  match strip_path cwd p with Some q => show_rel q | None => show_abs p end.

(** [display] of [FsError], error.rs:171-195: the second path of a conflict comes first. *)
Definition fs_msg (cwd : path) (e : fs_error) : text :=
  match e with
  | FE_NotFound p => lit "not found: " ++ show_abs p
  | FE_Read => lit "could not read from filesystem"
  | FE_Write => lit "could not write to filesystem"
  | FE_Conflict a b =>
      lit "filename conflict between " ++ quoted (show_path cwd b) ++ lit " and " ++ quoted (show_path cwd a)
  end.
(** [help] of [FsError], error.rs:197-211. *)
Definition fs_help (e : fs_error) : option text :=
  match e with
  | FE_NotFound _ => Some (lit "ensure that the file path is typed correctly")
  | FE_Read | FE_Write =>
      Some (lit "are any other processes using the file or directory, such as the terminal?")
  | FE_Conflict _ _ => None
  end.
(** [help] of [Error], error.rs:68-81 ([TracebackError] does not define its own). *)
Definition error_help (e : error) : option text :=
  match e with
  | E_Fs e => fs_help e
  | E_MetadataNotEnabled => Some (lit "enable metadata by adding `save_metadata = true` to your `stuart.toml`")
  | E_Parse _ | E_Process _ | E_Plugin _ | E_NotBuilt => None
  end.

(** What a report needs to know: the working directory, whether the program was compiled with overflow
    checks, and the text of the failed assertion if there is one. error.rs:84-100. *)
Record screen := Screen { sn_cwd : path; sn_checked : bool; sn_cond : text }.
(** [read_to_string] at error.rs:97. *)
Definition contents_at (p : path) (d : ent) : option text :=
  match lookup p d with Some (EFile b) => from_utf8 b | _ => None end.
(** [display] of [TracebackError], error.rs:84-168. *)
Definition display_at {K} (s : screen) (d : ent) (msg : K -> text) (help : K -> option text) (t : traceback K)
  : res unit (list text) :=
  report (sn_checked s) (show_path (sn_cwd s) (tb_path t)) (tb_line t) (tb_col t)
    [msg (tb_kind t)] (help (tb_kind t)) (contents_at (tb_path t) d).
(** [display] of [Error], error.rs:54-66. *)
Definition display (s : screen) (d : ent) (e : error) : res unit (list text) :=
  match e with
  | E_Fs e => Ok [fs_msg (sn_cwd s) e]
  | E_Parse t => display_at s d (parse_msg (sn_cond s)) parse_help t
  | E_Process t => display_at s d process_msg process_help t
  | E_Plugin m => Ok [m]
  | E_NotBuilt => Ok [lit "not built"]
  | E_MetadataNotEnabled => Ok [lit "metadata saving not enabled in configuration"]
  end.
(** Each line ends in a line feed, error.rs:84-168 and 383-393. *)
Definition unlines (l : list text) : text := flat_map (fun t => t ++ [c_lf]) l.
(** [StuartError::print], error.rs:38-50: what appears on the standard error stream, without colours. *)
Definition printed (s : screen) (d : ent) (e : error) : res unit text :=
  let? l := display s d e in Ok (lit "error: " ++ unlines l).
