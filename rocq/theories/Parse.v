(** Parse.v -- template and markdown parsing: parse/mod.rs and parse/markdown.rs. *)

From Coq Require Import String List NArith ZArith Bool.
From Verif Require Import Text Json Base Lexer Syntax.
Import ListNotations.
Local Open Scope N_scope.

(** Functions provided by plugins, plugin by plugin, with the plugin's name
    ([Manager::plugins], plugins/mod.rs:19-36); no manager is the empty table. *)
Definition fn_table := list (text * list plugin_parser).

(** The result type of parse/mod.rs:94-149. *)
Notation pres := (res (traceback parse_error)).

(** [parse_variable], parse/mod.rs:152-162. *)
Definition parse_variable (ext : char -> bool) (file : path) (p : parser) : pres (token * parser) :=
  let? p1 := p_expect file [c_dollar] p in
  let (v, p2) := extract_while (var_char ext) p1 in
  match v with
  | [] => Err (p_traceback file p2 (PE_InvalidVariableName (lit "<empty>")))
  | _ => Ok (TVar v, p2)
  end.

(** The closure of parse/mod.rs:187-193. *)
Definition arg_pred (open_quote : bool) (c : char) : bool * bool :=
  let open' := if c =? c_quote then negb open_quote else open_quote in
  (open' || (negb (c =? c_rparen) && negb (c =? c_comma)), open').

(** Handling of one argument text, parse/mod.rs:197-229. *)
Definition add_arg (ext : char -> bool) (file : path) (p : parser) (arg : text)
    (pos : list rawarg) (named : list (text * rawarg))
  : pres (list rawarg * list (text * rawarg)) :=
  let lift {A} (r : res parse_error A) : pres A := map_err (p_traceback file p) r in
  if (match arg with c :: _ => negb (c =? c_quote) | [] => false end) && contains_char c_eq arg then
    let (name, value) := splitn2 c_eq arg in
    match value with
    | None => Err (p_traceback file p PE_GenericSyntaxError)
    | Some value =>
        if (match name with [] => true | _ => false end)
           || (match value with [] => true | _ => false end)
           || negb (forallb (arg_char ext) name)
        then Err (p_traceback file p PE_GenericSyntaxError)
        else let? a := lift (rawarg_parse ext value) in Ok (pos, named ++ [(name, a)])
    end
  else
    match arg with
    | [] => Ok (pos, named)
    | _ =>
        match named with
        | _ :: _ => Err (p_traceback file p PE_PositionalArgAfterNamedArg)
        | [] => let? a := lift (rawarg_parse ext arg) in Ok (pos ++ [a], named)
        end
    end.

(** The argument loop, parse/mod.rs:182-236; [fuel] bounds the number of arguments. *)
Fixpoint parse_args (fuel : nat) (ext : char -> bool) (file : path) (p : parser)
    (pos : list rawarg) (named : list (text * rawarg))
  : pres (list rawarg * list (text * rawarg) * parser) :=
  match fuel with
  | O => OutOfFuel
  | S fuel' =>
      let p1 := ignore_while is_whitespace p in
      let (raw, p2) := extract_while_st arg_pred false p1 in
      let? pn := add_arg ext file p2 (trim raw) pos named in
      let (pos', named') := pn in
      match p_next p2 with
      | None => Err (p_traceback file p2 PE_UnexpectedEOF)
      | Some (c, p3) =>
          if c =? c_rparen then Ok (pos', named', p3)
          else if c =? c_comma then parse_args fuel' ext file p3 pos' named'
          else Panic Pn_unreachable
      end
  end.

(** The first built-in that can parse the call, parse/mod.rs:246-254 with [can_parse],
    functions/mod.rs:68-70. *)
Fixpoint find_builtin (name : text) (l : list builtin) : option builtin :=
  match l with
  | [] => None
  | b :: l' => if text_eqb name (builtin_name b) then Some b else find_builtin name l'
  end.

(** [format!("{}::{}", plugin.name, function.name())], parse/mod.rs:260. *)
Definition qualified (plugin fn : text) : text := plugin ++ lit "::" ++ fn.

(** The first matching plugin function, parse/mod.rs:256-270. *)
Fixpoint find_in_plugin (name plugin : text) (l : list plugin_parser) : option plugin_parser :=
  match l with
  | [] => None
  | f :: l' => if text_eqb name (pp_name f) || text_eqb name (qualified plugin (pp_name f))
               then Some f else find_in_plugin name plugin l'
  end.
(** The loop over the plugins, parse/mod.rs:256-270. *)
Fixpoint find_plugin (name : text) (t : fn_table) : option plugin_parser :=
  match t with
  | [] => None
  | (plugin, fs) :: t' =>
      match find_in_plugin name plugin fs with
      | Some f => Some f
      | None => find_plugin name t'
      end
  end.

(** Resolution of a raw function, parse/mod.rs:240-277; [Err None] is the final
    [NonexistentFunction]. *)
Definition resolve (plugins : fn_table) (raw : rawfn) : res (option parse_error) func :=
  match find_builtin (rf_name raw) function_parsers with
  | Some b => map_err Some (builtin_parse b raw)
  | None =>
      match find_plugin (rf_name raw) plugins with
      | Some f => match pp_parse f raw with inr g => Ok (FPlugin g) | inl e => Err (Some e) end
      | None => Err None
      end
  end.

(** [parse_function], parse/mod.rs:165-278. *)
Definition parse_function (ext : char -> bool) (plugins : fn_table) (file : path) (p : parser)
  : pres (token * parser) :=
  let (line, col) := location p in
  let (name, p1) := extract_while (fun_char ext) p in
  match name with
  | [] => Err (p_traceback file p1 (PE_InvalidFunctionName (lit "<empty>")))
  | _ =>
      let p2 := ignore_while is_whitespace p1 in
      let? p3 := p_expect file [c_lparen] p2 in
      let? r := parse_args (S (length (p_chars p3))) ext file p3 [] [] in
      let '(pos, named, p4) := r in
      let p5 := ignore_while is_whitespace p4 in
      let? f := map_err (fun e => match e with
                                  | Some e => p_traceback file p5 e
                                  | None => TB file line col (PE_NonexistentFunction name)
                                  end)
                  (resolve plugins (RawFn name pos named)) in
      Ok (TFun f, p5)
  end.

(** One tag, parse/mod.rs:115-135: after [{{] has been consumed.  Returns the token and the
    parser after [}}]. *)
Definition parse_tag (ext : char -> bool) (plugins : fn_table) (file : path) (p : parser)
  : pres (ltoken * parser) :=
  let p1 := ignore_while is_whitespace p in
  let (line, col) := location p1 in
  let? tp :=
    match p_peek p1 with
    | Some c => if c =? c_dollar then parse_variable ext file p1
                else parse_function ext plugins file p1
    | None => Err (p_traceback file p1 PE_UnexpectedEOF)
    end in
  let (t, p2) := tp in
  let? p3 := p_expect file [c_rbrace; c_rbrace] (ignore_while is_whitespace p2) in
  Ok (LTok t (Loc file line col), p3).

(** A raw token, pushed only when not empty (parse/mod.rs:106-113,139-146). *)
Definition raw_token (file : path) (pos : N * N) (s : text) : list ltoken :=
  match s with
  | [] => []
  | _ => [LTok (TRaw s) (Loc file (fst pos) (snd pos))]
  end.

(** The main loop of [parse_html], parse/mod.rs:105-148; [pos] is ([line], [column]). *)
Fixpoint html_loop (fuel : nat) (ext : char -> bool) (plugins : fn_table) (file : path)
    (pos : N * N) (p : parser) : pres (list ltoken) :=
  match fuel with
  | O => OutOfFuel
  | S fuel' =>
      match extract_until [c_lbrace; c_lbrace] true p with
      | (None, p1) => Ok (raw_token file pos (extract_remaining p1))
      | (Some raw, p1) =>
          let? tp := parse_tag ext plugins file p1 in
          let (t, p2) := tp in
          let? rest := html_loop fuel' ext plugins file (location p2) p2 in
          Ok (raw_token file pos raw ++ t :: rest)
      end
  end.

(** [parse_html], parse/mod.rs:94-149. *)
Definition parse_html (ext : char -> bool) (plugins : fn_table) (file : path) (input : text)
  : pres (list ltoken) :=
  let p := parser_new input in
  html_loop (S (length input)) ext plugins file (location p) p.

(** [ParsedMarkdown], parse/markdown.rs:13-22. *)
Record markdown := Markdown {
  md_front : list (text * text);
  md_tokens : list ltoken;
  md_string : text;
  md_html : option text
}.

(** One front matter line, parse/markdown.rs:56-68. *)
Definition front_line (line : text) : option (text * text) :=
  let (k, r) := splitn2 c_colon line in
  match r with
  | None => None
  | Some v =>
      match strip_prefix [c_quote] (trim v) with
      | None => None
      | Some v' =>
          match strip_suffix [c_quote] v' with
          | None => None
          | Some v'' => Some (trim k, v'')
          end
      end
  end.

(** Result of the loop over the lines, parse/markdown.rs:36-70. *)
Inductive front_res :=
| FrBad (i : N)                                    (* a bad line, 1-based *)
| FrOpen                                           (* end of input before the closing dashes *)
| FrOk (skip : nat) (front : list (text * text)).

(** parse/markdown.rs:36-70; [i] is the index of the current line, [dashed] is
    [dashed_lines] (0 or 1: at 2 the loop stops), [acc] the pairs so far. *)
Fixpoint front_loop (i : nat) (dashed : bool) (acc : list (text * text)) (ls : list text) : front_res :=
  match ls with
  | [] => FrOpen
  | l :: ls' =>
      if starts_with (lit "---") l then
        if dashed then FrOk (S i) acc else front_loop (S i) true acc ls'
      else if dashed then
        match front_line l with
        | Some kv => front_loop (S i) dashed (acc ++ [kv]) ls'
        | None => FrBad (N.of_nat i + 1)
        end
      else front_loop (S i) dashed acc ls'
  end.

(** [parse_markdown], parse/markdown.rs:25-100. *)
Definition parse_markdown (ext : char -> bool) (plugins : fn_table) (file : path) (input : text)
  : pres markdown :=
  let? sf :=
    (if starts_with (lit "---" ++ [c_lf]) input || starts_with (lit "---" ++ [c_cr; c_lf]) input then
      match front_loop O false [] (lines input) with
      | FrBad i => Err (TB file i 0 PE_InvalidFrontmatter)
      | FrOpen => Err (TB file (N.of_nat (length (lines input))) 0 PE_UnexpectedEOF)
      | FrOk n fm => Ok (n, fm)
      end
    else Ok (O, [])) in
  let (n, fm) := sf in
  let raw := join_lf (skipn n (lines input)) in
  let? toks := parse_html ext plugins file raw in
  Ok (Markdown fm toks raw None).

(** [ParsedMarkdown::frontmatter_to_value], parse/markdown.rs:115-123. *)
Definition front_value (fm : list (text * text)) : list (text * value) :=
  map (fun kv => (fst kv, VStr (snd kv))) fm.

(** [ParsedMarkdown::to_value], parse/markdown.rs:107-112. *)
Definition md_to_value {E} (m : markdown) : res E value :=
  match md_html m with
  | None => Panic Pn_md_html_none
  | Some h => Ok (VObj (set_key (lit "markdown") (VStr (md_string m))
                         (set_key (lit "content") (VStr h) (front_value (md_front m)))))
  end.
