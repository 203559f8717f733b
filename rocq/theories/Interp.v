(** Interp.v -- the template interpreter: process/mod.rs:273-373, process/iter.rs,
    process/stack.rs and the [execute] functions of functions/parsers/*.rs. *)

From Coq Require Import String List NArith ZArith Bool.
From Verif Require Import Text Utf8 Json Base Syntax Parse Tree.
Import ListNotations.

(** [TracebackError<ProcessError>], error.rs:24-35. *)
Notation tbe := (traceback process_error).
(** The result type of [LocatableToken::process], process/mod.rs:275. *)
Notation xres := (res (traceback process_error)).

(** What a run reads but never changes: the external functions, the input tree of the processor
    ([Stuart::input], lib.rs:57) and the token list iterated over. *)
Record world := World { w_host : host; w_input : node; w_toks : list ltoken }.

(** Updates of the scope. The position of [TokenIter], process/iter.rs:48-56. *)
Definition set_idx (i : nat) (s : scope) : scope := Scope i (sc_stack s) (sc_secs s).
(** [scope.stack], process/mod.rs:20-41. *)
Definition set_stack (st : list frame) (s : scope) : scope := Scope (sc_idx s) st (sc_secs s).
(** [scope.stack.push(frame)], e.g. begin.rs:46-48, for.rs:241. *)
Definition push_frame (f : frame) (s : scope) : scope := set_stack (f :: sc_stack s) s.
(** [output.extend_from_slice], process/mod.rs:277-282,323-328. *)
Definition add_out (b : bytes) (f : frame) : frame := Frame (fr_name f) (fr_vars f) (fr_out f ++ b).
(** [StackFrame::new], process/stack.rs:20-26. *)
Definition new_frame (name : text) : frame := Frame name [] [].
(** [StackFrame::add_variable] / [with_variable], process/stack.rs:29-37. *)
Definition add_var (n : text) (v : value) (f : frame) : frame :=
  Frame (fr_name f) (fr_vars f ++ [(n, v)]) (fr_out f).

(** [TokenIter::current], process/iter.rs:36-42 ([None]: the [unwrap] of the caller or the
    indexing panics). *)
Definition current (w : world) (s : scope) : option ltoken :=
  match sc_idx s with O => None | S i => nth_error (w_toks w) i end.
(** [scope.tokens.current().unwrap()] at the start of functions/parsers/*::execute, e.g. for.rs:134. *)
Definition with_current (w : world) (s : scope) (k : loc -> xres scope) : xres scope :=
  match current w s with None => Panic Pn_current | Some t => k (t_loc t) end.

(** [TokenIter::next], process/iter.rs:48-56. *)
Definition next_token (w : world) (s : scope) : option (ltoken * scope) :=
  match nth_error (w_toks w) (sc_idx s) with
  | Some t => Some (t, set_idx (S (sc_idx s)) s)
  | None => None
  end.

(** [Scope::output], process/mod.rs:364-372. *)
Definition output (b : bytes) (s : scope) : res process_error scope :=
  match sc_stack s with
  | [] => Err XE_StackError
  | f :: r => Ok (set_stack (add_out b f :: r) s)
  end.

(** Innermost frame binding the name, process/mod.rs:350-358 (and 293-296, for.rs:191-199). *)
Fixpoint lookup_frames (name : text) (st : list frame) : option value :=
  match st with
  | [] => None
  | f :: r => match assoc name (fr_vars f) with Some v => Some v | None => lookup_frames name r end
  end.
(** [Scope::get_variable], process/mod.rs:343-361. *)
Definition get_variable (name : text) (st : list frame) : option value :=
  let (h, idx) := split_char c_dot name in
  match lookup_frames h st with
  | Some v => Some (get_value idx v)
  | None => None
  end.

(** The [Variable] arm of [LocatableToken::process], process/mod.rs:286-334.  The Rust loop
    leaves at the first frame that binds the name: with the string, or with an error. *)
Definition var_string (v : text) (st : list frame) : res process_error text :=
  let bad found := Err (XE_InvalidDataType v (lit "string") (lit found)) in
  match get_variable v st with
  | None => Err (XE_UndefinedVariable v)
  | Some (VStr s) => Ok s
  | Some VNull => Err (XE_NullError v)
  | Some (VBool _) => bad "bool"%string
  | Some (VNum _) => bad "number"%string
  | Some (VArr _) => bad "array"%string
  | Some (VObj _) => bad "object"%string
  end.

(** Append to the top frame, [last_mut().unwrap()] (process/mod.rs:277-282,323-328). *)
Definition emit (b : bytes) (s : scope) : xres scope :=
  match sc_stack s with
  | [] => Panic Pn_last_mut
  | f :: r => Ok (set_stack (add_out b f :: r) s)
  end.

(** A variable that must be a string: excerpt.rs:49-59, timetoread.rs:43-53,
    dateformat.rs:54-64. *)
Definition string_var (v : text) (s : scope) : res process_error text :=
  match get_variable v (sc_stack s) with
  | None => Err (XE_UndefinedVariable v)
  | Some x => ok_or (as_str x) (XE_InvalidDataType v (lit "string") [])
  end.

(** The loop of excerpt.rs:66-80.  [n] is [excerpt.len()], in bytes; returns the excerpt and
    [total_chars]. *)
Fixpoint excerpt_loop (len : N) (tag : bool) (n : N) (t : text) : text * N :=
  if (len <=? n)%N then ([], 0%N)
  else
    match t with
    | [] => ([], 0%N)
    | c :: t' =>
        if (c =? c_lt)%N then let (r, k) := excerpt_loop len true n t' in (r, N.succ k)
        else if (c =? c_gt)%N then let (r, k) := excerpt_loop len false n t' in (r, N.succ k)
        else if tag then let (r, k) := excerpt_loop len tag n t' in (r, N.succ k)
        else let (r, k) := excerpt_loop len tag (n + len1 c)%N t' in (c :: r, N.succ k)
    end.
(** excerpt.rs:61-84. *)
Definition excerpt (len : N) (s : text) : text :=
  let (r, k) := excerpt_loop len false 0 s in
  if (k <? byte_len s)%N then r ++ lit "..." else r.

(** timetoread.rs:55-56. *)
Definition minutes (s : text) : N := N.max (word_count s / 200)%N 1.

(** [Input::evaluate_variable], functions/mod.rs:100-109. *)
Definition eval_input (i : input) (st : list frame) : option input :=
  match i with
  | IVar v => match get_variable v st with
              | Some (VStr s) => Some (IStr s)
              | Some (VNum f) => Some (IInt (f64_as_i32 f))
              | _ => None
              end
  | x => Some x
  end.
(** [Input::to_string], functions/mod.rs:134-142. *)
Definition show_input (i : input) : text :=
  match i with IVar v => v | IStr s => s | IInt z => show_Z z end.
(** [PartialEq for Input], functions/mod.rs:112-121. *)
Definition input_eq (a b : input) : bool :=
  match a, b with
  | IVar x, IVar y => text_eqb x y
  | IStr x, IStr y => text_eqb x y
  | IInt x, IInt y => (x =? y)%Z
  | _, _ => false
  end.
(** [PartialOrd for Input], functions/mod.rs:123-132. *)
Definition input_cmp (a b : input) : option comparison :=
  match a, b with
  | IInt x, IInt y => Some (x ?= y)%Z
  | _, _ => None
  end.
(** [input_1 $cond input_2] (if.rs:57) with the operators of functions/mod.rs:32-37: [ifle]
    is instantiated with [<]. *)
Definition cond (c : cmp) (a b : input) : bool :=
  match c with
  | CEq => input_eq a b
  | CNe => negb (input_eq a b)
  | CGt => match input_cmp a b with Some Gt => true | _ => false end
  | CGe => match input_cmp a b with Some Gt | Some Eq => true | _ => false end
  | CLt => match input_cmp a b with Some Lt => true | _ => false end
  | CLe => match input_cmp a b with Some Lt => true | _ => false end
  end.

(** [format!("{}:{}:{}", ...)], if.rs:59-64. *)
Definition if_frame_name (c : cmp) (a b : input) : text :=
  cmp_name c ++ [c_colon] ++ show_input a ++ [c_colon] ++ show_input b.

(** [sort_by_cached_key] (for.rs:210-215): a stable sort by the key, ascending.  Insertion sort:
    an element goes after the elements with a key that is not greater. *)
Fixpoint insert_by {A} (key : A -> text) (x : A) (l : list A) : list A :=
  match l with
  | [] => [x]
  | y :: l' => if text_ltb (key x) (key y) then x :: l else y :: insert_by key x l'
  end.
(** for.rs:210-215. *)
Definition sort_by {A} (key : A -> text) (l : list A) : list A :=
  fold_left (fun acc x => insert_by key x acc) l [].

(** The sort key of a value, for.rs:208-214. *)
Definition sort_key (k : text) (v : value) : text :=
  match as_str (get_value (snd (split_char c_dot k)) v) with Some s => s | None => [] end.

(** The values a loop iterates over: sorting, order, skip, limit (for.rs:207-229). *)
Definition select (f : for_fn) (vs : list value) : list value :=
  let vs := match ff_sort f with Some k => sort_by (sort_key k) vs | None => vs end in
  let vs := if ff_desc f then rev vs else vs in
  let vs := match ff_skip f with Some n => skip_n n vs | None => vs end in
  match ff_limit f with Some n => take_n n vs | None => vs end.

(** [filter_map] of [to_value] over markdown children, for.rs:152-160. *)
Fixpoint md_values {E} (l : list node) : res E (list value) :=
  match l with
  | [] => Ok []
  | n :: l' =>
      match n_parsed n with
      | PMarkdown m => let? v := md_to_value m in let? r := md_values l' in Ok (v :: r)
      | _ => md_values l'
      end
  end.

(** The source values of a loop, for.rs:136-205. *)
Definition for_values (w : world) (f : for_fn) (st : list frame) : res process_error (list value) :=
  match ff_type f with
  | SrcDir =>
      match get_at_path (w_input w) (ff_src f) with
      | Some (NDir _ ch _) => md_values ch
      | _ => Err (XE_NotFound (ff_src f))
      end
  | SrcJson =>
      match get_at_path (w_input w) (ff_src f) with
      | Some (NFile _ _ pc _ _) =>
          match pc with
          | PJson v => ok_or (as_array v) XE_NotJsonArray
          | _ => Err XE_NotJsonArray
          end
      | _ => Err (XE_NotFound (ff_src f))
      end
  | SrcVar =>
      match get_variable (ff_src f) st with
      | Some v => ok_or (as_array v) XE_NotJsonArray
      | None => Err XE_NotJsonArray
      end
  end.

(** ImportFunction::execute, import.rs:49-90. *)
Definition exec_import (w : world) (v file : text) (s : scope) : res process_error scope :=
  match get_at_path (w_input w) file with
  | Some (NFile _ _ pc _ _) =>
      match pc with
      | PJson j =>
          match sc_stack s with
          | [] => Err XE_StackError
          | f :: r => match assoc v (fr_vars f) with
                      | Some _ => Err (XE_VariableAlreadyExists v)
                      | None => Ok (set_stack (add_var v j f :: r) s)
                      end
          end
      | _ => Err (XE_InvalidDataType (lit "<file>") (lit "json") [])
      end
  | _ => Err (XE_NotFound file)
  end.

(** EndFunction::execute, end.rs:43-80. *)
Definition exec_end (label : text) (custom : bool) (s : scope) : res process_error scope :=
  match sc_stack s with
  | [] => Err XE_EndWithoutBegin
  | f :: r =>
      let s1 := set_stack r s in
      if custom then
        if text_eqb (fr_name f) (lit "begin:" ++ label) then
          let? s2 := output (fr_out f) s1 in
          Ok (Scope (sc_idx s2) (sc_stack s2) (sc_secs s2 ++ [(label, fr_out f)]))
        else Err XE_EndWithoutBegin
      else
        if starts_with (label ++ [c_colon]) (fr_name f) then output (fr_out f) s1
        else Err XE_EndWithoutBegin
  end.

(** ElseFunction::execute, else.rs:30-44. *)
Definition exec_else (s : scope) : res process_error scope :=
  match sc_stack s with
  | [] => Err XE_ElseWithoutIf
  | f :: _ => if starts_with (lit "if") (fr_name f) then Ok s else Err XE_ElseWithoutIf
  end.

(** InsertFunction::execute, insert.rs:38-57. *)
Definition exec_insert (label : text) (s : scope) : res process_error scope :=
  match sc_stack s with
  | [] => Err XE_StackError
  | f :: r => match assoc label (sc_secs s) with
              | None => Err (XE_UndefinedSection label)
              | Some b => Ok (set_stack (add_out b f :: r) s)
              end
  end.

(** DateFormatFunction::execute, dateformat.rs:47-85. *)
Definition exec_date (h : host) (v fmt : text) (s : scope) : res process_error scope :=
  match h_date h with
  | None => Err (XE_FeatureNotEnabled (lit "date"))
  | Some d =>
      let? x := string_var v s in
      match d x fmt with
      | None => Err XE_InvalidDate
      | Some r => output (enc r) s
      end
  end.

Section Loops.
  Variable ex : ltoken -> scope -> xres scope.   (* [LocatableToken::process] on nested tokens *)
  Variable w : world.
  Variable height : nat.                          (* [stack_height] *)
  Variable eof : tbe.                             (* [UnexpectedEndOfFile] at the opening tag *)

  (** [while scope.stack.len() > stack_height], for.rs:243-249. *)
  Fixpoint run_block (k : nat) (s : scope) : xres scope :=
    if Nat.leb (length (sc_stack s)) height then Ok s
    else
      match k with
      | O => OutOfFuel
      | S k' =>
          match next_token w s with
          | None => Err eof
          | Some (t, s1) => let? s2 := ex t s1 in run_block k' s2
          end
      end.

  (** [function_name] is [end] or [else] (if.rs:75-79); asking a plugin function for its name may
      panic. *)
  Definition token_fn_name (t : ltoken) : xres (option text) :=
    match t_inner t with
    | TFun f => match func_name f with Some n => Ok (Some n) | None => Panic Pn_js_name end
    | _ => Ok None
    end.
  (** The comparisons of names, if.rs:77-79 and ifdefined.rs:62-64. *)
  Definition is_name (o : option text) (n : text) : bool :=
    match o with Some m => text_eqb m n | None => false end.

  (** The loop of the conditionals, if.rs:69-88 and ifdefined.rs:54-73. *)
  Fixpoint run_cond (k : nat) (condition : bool) (s : scope) : xres scope :=
    if Nat.leb (length (sc_stack s)) height then Ok s
    else
      match k with
      | O => OutOfFuel
      | S k' =>
          match next_token w s with
          | None => Err eof
          | Some (t, s1) =>
              let? nm := token_fn_name t in
              if condition
                 || ((is_name nm (lit "end") || is_name nm (lit "else"))
                     && Nat.eqb (length (sc_stack s1)) (S height))
              then
                let? s2 := ex t s1 in
                run_cond k' (if is_name nm (lit "else") then negb condition else condition) s2
              else run_cond k' condition s1
          end
      end.
End Loops.

(** The loop over the selected values, for.rs:231-250. *)
Fixpoint for_loop (ex : ltoken -> scope -> xres scope) (w : world) (name : text) (waypoint : nat)
    (eof : tbe) (vs : list value) (s : scope) : xres scope :=
  match vs with
  | [] => Ok s
  | v :: vs' =>
      let s1 := set_idx waypoint s in
      let h := length (sc_stack s1) in
      let s2 := push_frame (add_var name v (new_frame (lit "for:" ++ name))) s1 in
      let? s3 := run_block ex w h eof (S (length (w_toks w))) s2 in
      for_loop ex w name waypoint eof vs' s3
  end.

(** [Function::execute] of every function; [l] is the location used by plugins.
    The call of process/mod.rs:284, functions/mod.rs:77-83. *)
Definition exec_fn (ex : ltoken -> scope -> xres scope) (w : world) (f : func) (s : scope) : xres scope :=
  let located (r : res process_error scope) : xres scope :=
    with_current w s (fun l => map_err (tb l) r) in
  match f with
  | FBegin label _ => Ok (push_frame (new_frame (lit "begin:" ++ label)) s)   (* begin.rs:45-51 *)
  | FDate v fmt => located (exec_date (w_host w) v fmt s)
  | FElse => located (exec_else s)
  | FEnd label custom => located (exec_end label custom s)
  | FExcerpt v n =>                                                          (* excerpt.rs:46-89 *)
      located (let? x := string_var v s in output (enc (excerpt n x)) s)
  | FFor f =>                                                                (* for.rs:132-253 *)
      with_current w s (fun l =>
        let? vs := map_err (tb l) (for_values w f (sc_stack s)) in
        for_loop ex w (ff_var f) (sc_idx s) (tb l XE_UnexpectedEndOfFile) (select f vs) s)
  | FIfDefined v =>                                                          (* ifdefined.rs:41-76 *)
      with_current w s (fun l =>
        let d := match get_variable v (sc_stack s) with
                 | Some VNull => false | Some _ => true | None => false
                 end in
        run_cond ex w (length (sc_stack s)) (tb l XE_UnexpectedEndOfFile) (S (length (w_toks w))) d
          (push_frame (new_frame (lit "ifdefined:" ++ v)) s))
  | FImport v file => located (exec_import w v file s)
  | FInsert label => located (exec_insert label s)
  | FTime v =>                                                               (* timetoread.rs:40-63 *)
      located (let? x := string_var v s in output (enc (show_N (minutes x))) s)
  | FIf c a b =>                                                             (* if.rs:46-91 *)
      with_current w s (fun l =>
        let? x := ok_or (eval_input a (sc_stack s)) (tb l (XE_UndefinedVariable (show_input a))) in
        let? y := ok_or (eval_input b (sc_stack s)) (tb l (XE_UndefinedVariable (show_input b))) in
        run_cond ex w (length (sc_stack s)) (tb l XE_UnexpectedEndOfFile) (S (length (w_toks w)))
          (cond c x y) (push_frame (new_frame (if_frame_name c a b)) s))
  | FPlugin p => with_current w s (fun l => pf_exec p l s)
  end.

(** [LocatableToken::process], process/mod.rs:275-338; [n] bounds the nesting of loops and
    conditionals. *)
Fixpoint exec (n : nat) (w : world) (t : ltoken) (s : scope) : xres scope :=
  match n with
  | O => OutOfFuel
  | S n' =>
      match t_inner t with
      | TRaw r => emit (enc r) s
      | TFun f => exec_fn (exec n' w) w f s
      | TVar v =>
          match var_string v (sc_stack s) with
          | Ok x => emit (enc x) s
          | Err e => Err (tb (t_loc t) e)
          | Panic p => Panic p
          | OutOfFuel => OutOfFuel
          end
      end
  end.

(** [while let Some(token) = scope.tokens.next() { token.process(&mut scope)?; }],
    process/mod.rs:111-113,134-136,182-184,205-207,241-243. *)
Fixpoint run_all (k : nat) (n : nat) (w : world) (s : scope) : xres scope :=
  match k with
  | O => OutOfFuel
  | S k' =>
      match next_token w s with
      | None => Ok s
      | Some (t, s1) => let? s2 := exec n w t s1 in run_all k' n w s2
      end
  end.
(** The whole loop from the current position, with enough fuel for built-in functions.
    The loops of process/mod.rs:111-113,134-136. *)
Definition run (w : world) (s : scope) : xres scope :=
  run_all (S (length (w_toks w))) (S (length (w_toks w))) w s.
