(** Lexer.v -- the low-level parser, stuart-core/src/parse/parser.rs. *)

From Coq Require Import List NArith Bool.
From Verif Require Import Text Base.
Import ListNotations.
Local Open Scope N_scope.

(** [Parser], parse/parser.rs:13-20.  The path is constant and kept outside; [u32] counters are
    unbounded. *)
Record parser := Parser {
  p_chars : text;        (* remaining characters *)
  p_line : N; p_col : N; (* position of the last consumed character *)
  p_nline : N; p_ncol : N
}.

(** [Parser::new], parser.rs:24-33. *)
Definition parser_new (input : text) : parser := Parser input 1 1 1 1.

(** [Parser::location], parser.rs:163-165. *)
Definition location (p : parser) : N * N := (p_line p, p_col p).

(** [Parser::traceback], parser.rs:36-43. *)
Definition p_traceback (file : path) (p : parser) (e : parse_error) : traceback parse_error :=
  TB file (p_line p) (p_col p) e.

(** The state update of [Parser::next] for character [c], parser.rs:48-59. *)
Definition advance (c : char) (rest : text) (p : parser) : parser :=
  if c =? c_lf then Parser rest (p_nline p) (p_ncol p) (p_nline p + 1) 0
  else if c =? c_cr then Parser rest (p_nline p) (p_ncol p) (p_nline p) (p_ncol p)
  else Parser rest (p_nline p) (p_ncol p) (p_nline p) (p_ncol p + 1).

(** [Parser::next], parser.rs:47-63; [None] stands for the error [UnexpectedEOF]. *)
Definition p_next (p : parser) : option (char * parser) :=
  match p_chars p with
  | [] => None
  | c :: rest => Some (c, advance c rest p)
  end.

(** [Parser::peek], parser.rs:66-68. *)
Definition p_peek (p : parser) : option char :=
  match p_chars p with [] => None | c :: _ => Some c end.

(** [Parser::expect], parser.rs:71-81; [s0] is the whole expected string, [s] what is left. *)
Fixpoint p_expect_aux (file : path) (s0 s : text) (p : parser) : res (traceback parse_error) parser :=
  match s with
  | [] => Ok p
  | c :: s' =>
      match p_next p with
      | None => Err (p_traceback file p PE_UnexpectedEOF)
      | Some (d, p') => if c =? d then p_expect_aux file s0 s' p'
                        else Err (p_traceback file p' (PE_Expected s0))
      end
  end.
(** [Parser::expect], parser.rs:71-81, from the start of the string. *)
Definition p_expect (file : path) (s : text) (p : parser) := p_expect_aux file s s p.

(** The loop of [Parser::extract_until], parser.rs:86-113, by recursion on the remaining
    characters [cs].  [racc] is the accumulated [result] in reverse; [st] carries the position
    counters.  The byte [result.as_bytes()[len-s.len()-1]] is a backslash exactly when the
    character before the match is one (continuation bytes are >= 128).  On failure Rust restores
    only the characters: the counters keep the values they reached. *)
Fixpoint until_loop (s : text) (esc : bool) (cs : text) (racc : text) (st : parser)
  : option text * parser :=
  match cs with
  | [] => (None, st)
  | c :: cs' =>
      let st' := advance c cs' st in
      let racc' := c :: racc in
      match strip_prefix (rev s) racc' with
      | None => until_loop s esc cs' racc' st'
      | Some r =>
          match r with
          | b :: r' => if esc && (b =? c_bslash)
                       then until_loop s esc cs' (rev s ++ r') st'
                       else (Some (rev r), st')
          | [] => (Some [], st')
          end
      end
  end.

(** [Parser::extract_until], parser.rs:86-113. *)
Definition extract_until (s : text) (esc : bool) (p : parser) : option text * parser :=
  match until_loop s esc (p_chars p) [] p with
  | (Some r, p') => (Some r, p')
  | (None, p') => (None, Parser (p_chars p) (p_line p') (p_col p') (p_nline p') (p_ncol p'))
  end.

(** The loop of [Parser::extract_while], parser.rs:116-131.  The Rust predicate is [FnMut]; its
    mutable state is [st], returned after each test. *)
Fixpoint while_loop {S} (f : S -> char -> bool * S) (st : S) (cs : text) (p : parser) : text * parser :=
  match cs with
  | [] => ([], p)
  | c :: cs' =>
      let (b, st') := f st c in
      if b then let (r, p') := while_loop f st' cs' (advance c cs' p) in (c :: r, p')
      else ([], p)
  end.
(** [Parser::extract_while], parser.rs:116-131. *)
Definition extract_while_st {S} (f : S -> char -> bool * S) (st : S) (p : parser) : text * parser :=
  while_loop f st (p_chars p) p.
(** [extract_while] with a stateless predicate. parser.rs:116-131. *)
Definition extract_while (f : char -> bool) (p : parser) : text * parser :=
  extract_while_st (fun (_ : unit) c => (f c, tt)) tt p.

(** [str::replace(from, to)]: leftmost, non-overlapping occurrences of a non-empty [from].
    [skip] counts the characters of a match still to be dropped. Used at parser.rs:142. *)
Fixpoint replace_aux (from to : text) (skip : nat) (t : text) : text :=
  match t with
  | [] => []
  | c :: t' =>
      match skip with
      | S k => replace_aux from to k t'
      | O => match strip_prefix from t with
             | Some _ => to ++ replace_aux from to (Nat.pred (length from)) t'
             | None => c :: replace_aux from to O t'
             end
      end
  end.
(** [str::replace], parser.rs:142. *)
Definition str_replace (from to t : text) : text := replace_aux from to O t.

(** [Parser::extract_remaining], parser.rs:134-146 (always called with [allow_escape]).  The
    parser is not used afterwards. *)
Definition extract_remaining (p : parser) : text :=
  str_replace [c_bslash; c_lbrace; c_lbrace] [c_lbrace; c_lbrace] (p_chars p).

(** [Parser::ignore_while], parser.rs:149-160. *)
Definition ignore_while (f : char -> bool) (p : parser) : parser := snd (extract_while f p).
