(** SpecReport.v -- words for error reports (C79). *)

From Coq Require Import String List NArith ZArith Bool.
From Verif Require Import Text Base Tree Disk SpecDisk.
Import ListNotations.

(** Text on one line, and without the mark that quotes it. *)
Definition one_line (t : text) : Prop := ~ In c_lf t.
Definition unquoted (t : text) : Prop := ~ In 96%N t.
(** The texts an error speaks of. *)
Definition parse_subjects (e : parse_error) : list text :=
  match e with
  | PE_Expected s | PE_InvalidVariableName s | PE_InvalidFunctionName s | PE_NonexistentFunction s => [s]
  | _ => []
  end.
Definition process_subjects (e : process_error) : list text :=
  match e with
  | XE_FeatureNotEnabled s | XE_VariableAlreadyExists s | XE_UndefinedVariable s | XE_UndefinedSection s
  | XE_NullError s | XE_NotFound s => [s]
  | XE_InvalidDataType v e f => [v; e; f]
  | _ => []
  end.
Definition tidy (t : text) : Prop := one_line t /\ unquoted t.
Definition tidy_path (p : path) : Prop := Forall (fun n => plain n /\ tidy n) p.
(** An error with a place in a file, whose parts fit on a line. *)
Inductive located : error -> Prop :=
| lo_parse t : tidy_path (tb_path t) -> Forall tidy (parse_subjects (tb_kind t)) -> located (E_Parse t)
| lo_process t : tidy_path (tb_path t) -> Forall tidy (process_subjects (tb_kind t)) -> located (E_Process t).
(** The advice that is meant for an error. *)
Inductive advice : error -> text -> Prop :=
| ad_eof t : tb_kind t = PE_UnexpectedEOF -> advice (E_Parse t) (lit "are you missing a closing command?")
| ad_expected t s : tb_kind t = PE_Expected s -> advice (E_Parse t) (lit "try adding `" ++ s ++ lit "`")
| ad_variable t s : tb_kind t = PE_InvalidVariableName s ->
    advice (E_Parse t) (lit "variable names must not be empty and can only contain certain characters")
| ad_function t s : tb_kind t = PE_InvalidFunctionName s ->
    advice (E_Parse t) (lit "function names must not be empty and can only contain certain characters")
| ad_position t : tb_kind t = PE_PositionalArgAfterNamedArg -> advice (E_Parse t) (lit "place positional arguments before named arguments")
| ad_root t : tb_kind t = XE_MissingHtmlRoot -> advice (E_Process t) (lit "ensure that your `root.html` template exists and is accessible")
| ad_md t : tb_kind t = XE_MissingMarkdownRoot -> advice (E_Process t) (lit "ensure that your `md.html` template exists and is accessible")
| ad_stack t : tb_kind t = XE_StackError -> advice (E_Process t) (lit "this shouldn't have happened, please open an issue!")
| ad_array t : tb_kind t = XE_NotJsonArray -> advice (E_Process t) (lit "only arrays can be used in this context")
| ad_date t : tb_kind t = XE_InvalidDate -> advice (E_Process t) (lit "ensure the date is valid and the format is correct")
| ad_feature t s : tb_kind t = XE_FeatureNotEnabled s -> advice (E_Process t) (lit "reinstall Stuart with the feature enabled")
| ad_exists t s : tb_kind t = XE_VariableAlreadyExists s -> advice (E_Process t) (lit "variables in Stuart are immutable (for the time being)")
| ad_null t s : tb_kind t = XE_NullError s ->
    advice (E_Process t) (lit "if the variable is sometimes null, consider using the `ifdefined` function")
| ad_missing p : advice (E_Fs (FE_NotFound p)) (lit "ensure that the file path is typed correctly")
| ad_read : advice (E_Fs FE_Read) (lit "are any other processes using the file or directory, such as the terminal?")
| ad_write : advice (E_Fs FE_Write) (lit "are any other processes using the file or directory, such as the terminal?")
| ad_metadata : advice E_MetadataNotEnabled (lit "enable metadata by adding `save_metadata = true` to your `stuart.toml`").
(** The text ends in this line. *)
Definition last_line (t l : text) : Prop := exists a, t = a ++ l ++ [c_lf] /\ (a = [] \/ exists b, a = b ++ [c_lf]).
(** A project with two pages. *)
Definition two_pages (x y : bytes) : ent := EDir [(lit "stuart.toml", EFile []);
  (lit "content", EDir [(lit "root.html", EFile []); (lit "a.html", EFile x); (lit "b.html", EFile y)])].
