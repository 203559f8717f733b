(** Text.v -- Rust [char] and [str] operations used by Stuart.

    A [text] models a Rust [&str]/[String] as the list of its Unicode scalar values
    ([str::chars]).  The byte view of a text is in [Utf8.v].  All functions below are the
    standard-library functions that the cited lines of Stuart call. *)

From Coq Require Import Ascii String List NArith ZArith Bool.
Import ListNotations.
Local Open Scope N_scope.

(** A Rust [char]; validity (a scalar value) is the predicate [scalar] of [Utf8.v].
    The element type of [str::chars], e.g. parse/parser.rs:14,26. *)
Definition char := N.
(** A [String] or [&str], e.g. parse/parser.rs:86. *)
Definition text := list char.
(** A Rust [u8] sequence.
    The [Vec<u8>] of file contents and output, fs/mod.rs:31, process/stack.rs:15. *)
Definition bytes := list N.

(** String literals of the source, e.g. ["root.html"] in stuart-core/src/lib.rs:258. *)
Definition lit (s : string) : text := map N_of_ascii (list_ascii_of_string s).

(** [str] equality: [==] on strings.
    E.g. functions/mod.rs:69, process/stack.rs:43, fs/mod.rs:154. *)
Fixpoint text_eqb (a b : text) : bool :=
  match a, b with
  | [], [] => true
  | x :: a', y :: b' => (x =? y) && text_eqb a' b'
  | _, _ => false
  end.

(** [Ord for str] (used by [sort_by_cached_key], functions/parsers/for.rs:210-215): Rust
    compares UTF-8 bytes lexicographically, which is the lexicographic order of the code
    points (proved in [Utf8Facts.v], [text_ltb_bytes]). *)
Fixpoint text_ltb (a b : text) : bool :=
  match a, b with
  | _, [] => false
  | [], _ :: _ => true
  | x :: a', y :: b' => if x <? y then true else if y <? x then false else text_ltb a' b'
  end.
(** The order of for.rs:210-215, from [text_ltb]. *)
Definition text_leb (a b : text) : bool := negb (text_ltb b a).

(** Named characters, each with a place where it occurs. *)
Definition c_lf : char := 10.   (* parser.rs:52 *)
Definition c_cr : char := 13.   (* parser.rs:55 *)
Definition c_space : char := 32. (* error.rs:136 *)
Definition c_quote : char := 34. (* parse/function.rs:49 *)
Definition c_dollar : char := 36. (* parse/mod.rs:120 *)
Definition c_lparen : char := 40. (* parse/mod.rs:177 *)
Definition c_rparen : char := 41. (* parse/mod.rs:192 *)
Definition c_comma : char := 44. (* parse/mod.rs:192 *)
Definition c_minus : char := 45. (* parse/function.rs:59 *)
Definition c_dot : char := 46.  (* process/mod.rs:287 *)
Definition c_slash : char := 47. (* for.rs:60 *)
Definition c_colon : char := 58. (* parse/markdown.rs:56 *)
Definition c_lt : char := 60.   (* excerpt.rs:68 *)
Definition c_eq : char := 61.   (* parse/mod.rs:201 *)
Definition c_gt : char := 62.   (* excerpt.rs:70 *)
Definition c_bslash : char := 92. (* parser.rs:97 *)
Definition c_under : char := 95. (* parse/mod.rs:155 *)
Definition c_lbrace : char := 123. (* parse/mod.rs:105 *)
Definition c_rbrace : char := 125. (* parse/mod.rs:133 *)
Definition c_plus : char := 43. (* parse/function.rs:59 *)

(** [char::is_whitespace]: the Unicode White_Space property.
    Used at parse/mod.rs:115,132,176,183,238 and, through [trim] and [split_whitespace], parse/mod.rs:194, timetoread.rs:55. *)
Definition is_whitespace (c : char) : bool :=
  ((9 <=? c) && (c <=? 13)) || (c =? 32) || (c =? 133) || (c =? 160) || (c =? 5760)
  || ((8192 <=? c) && (c <=? 8202)) || (c =? 8232) || (c =? 8233) || (c =? 8239)
  || (c =? 8287) || (c =? 12288).

(** The ASCII digits of [char::is_alphanumeric], parse/mod.rs:155, and of [str::parse], parse/function.rs:59. *)
Definition is_digit (c : char) : bool := (48 <=? c) && (c <=? 57).
(** The ASCII letters of [char::is_alphanumeric], parse/mod.rs:155. *)
Definition is_ascii_alpha (c : char) : bool :=
  ((65 <=? c) && (c <=? 90)) || ((97 <=? c) && (c <=? 122)).

(** [char::is_alphanumeric].  The ASCII part is exact; beyond ASCII it is the Unicode table,
    an arbitrary function [ext] here (every theorem holds for every [ext]), except that no
    White_Space character is alphabetic or numeric.
    Used at parse/mod.rs:155,170,212, parse/function.rs:43. *)
Definition is_alnum (ext : char -> bool) (c : char) : bool :=
  if c <? 128 then is_digit c || is_ascii_alpha c else ext c && negb (is_whitespace c).

(** [str::starts_with(&str)], [str::strip_prefix(&str)].
    Used at parse/function.rs:36-52, parse/markdown.rs:30,37,63, end.rs:69, else.rs:39. *)
Fixpoint strip_prefix (p t : text) : option text :=
  match p, t with
  | [], _ => Some t
  | _ :: _, [] => None
  | x :: p', y :: t' => if x =? y then strip_prefix p' t' else None
  end.
(** parse/markdown.rs:30,37, end.rs:69, else.rs:39. *)
Definition starts_with (p t : text) : bool :=
  match strip_prefix p t with Some _ => true | None => false end.
(** [str::ends_with(&str)], [str::strip_suffix(&str)].
    Used at parse/function.rs:52, parse/markdown.rs:64, process/mod.rs:209, fs/mod.rs:365. *)
Definition strip_suffix (p t : text) : option text :=
  match strip_prefix (rev p) (rev t) with Some r => Some (rev r) | None => None end.
(** parse/function.rs:49, for.rs:58,60, fs/mod.rs:358,361. *)
Definition ends_with (p t : text) : bool :=
  match strip_suffix p t with Some _ => true | None => false end.

(** [str::contains(char)]. Used at parse/mod.rs:197, parse/function.rs:54. *)
Definition contains_char (c : char) (t : text) : bool := existsb (N.eqb c) t.

(** [str::trim]. The loops of [str::trim], parse/mod.rs:194, parse/markdown.rs:57,62. *)
Fixpoint drop_while (f : char -> bool) (t : text) : text :=
  match t with
  | [] => []
  | c :: t' => if f c then drop_while f t' else t
  end.
(** parse/mod.rs:194, first half of [trim]. *)
Definition trim_start (t : text) : text := drop_while is_whitespace t.
(** parse/mod.rs:194, second half of [trim]. *)
Definition trim_end (t : text) : text := rev (drop_while is_whitespace (rev t)).
(** parse/mod.rs:194, parse/markdown.rs:57,62. *)
Definition trim (t : text) : text := trim_end (trim_start t).

(** [str::split(char)]: always at least one piece.
    Used at process/mod.rs:287,344, for.rs:185,208, stuart/src/plugins/mod.rs:61. *)
Fixpoint split_char (c : char) (t : text) : text * list text :=
  match t with
  | [] => ([], [])
  | x :: t' =>
      let (h, r) := split_char c t' in
      if x =? c then ([], h :: r) else (x :: h, r)
  end.

(** [str::splitn(2, char)]: the part before the first separator and, if there is a
    separator, the part after it. Used at parse/mod.rs:201, parse/markdown.rs:56. *)
Fixpoint splitn2 (c : char) (t : text) : text * option text :=
  match t with
  | [] => ([], None)
  | x :: t' =>
      if x =? c then ([], Some t')
      else let (h, r) := splitn2 c t' in (x :: h, r)
  end.

(** [str::lines]: split after every LF, the LF and a CR right before it are removed, and a
    final empty piece is not a line.  (Rust keeps a lone CR at the end of a last line that has
    no LF.) Used at parse/markdown.rs:36,76,87, stuart/src/error.rs:100. *)
Definition strip_cr (t : text) : text :=
  match rev t with
  | c :: r => if c =? c_cr then rev r else t
  | [] => t
  end.
(** The loop of [lines], parse/markdown.rs:36. *)
Fixpoint lines_aux (cur : text) (t : text) : list text :=   (* [cur] is reversed *)
  match t with
  | [] => match cur with [] => [] | _ => [rev cur] end
  | c :: t' => if c =? c_lf then strip_cr (rev cur) :: lines_aux [] t'
               else lines_aux (c :: cur) t'
  end.
(** parse/markdown.rs:36,76,87, stuart/src/error.rs:100. *)
Definition lines (t : text) : list text := lines_aux [] t.

(** [[String]::join("\n")]. Used at parse/markdown.rs:90. *)
Fixpoint join_lf (l : list text) : text :=
  match l with
  | [] => []
  | [x] => x
  | x :: l' => x ++ c_lf :: join_lf l'
  end.

(** [str::split_whitespace().count()]: number of maximal runs of non-whitespace.
    Used at timetoread.rs:55. *)
Fixpoint word_count_aux (in_word : bool) (t : text) : N :=
  match t with
  | [] => 0
  | c :: t' =>
      if is_whitespace c then word_count_aux false t'
      else (if in_word then 0 else 1) + word_count_aux true t'
  end.
(** timetoread.rs:55. *)
Definition word_count (t : text) : N := word_count_aux false t.

(** [str::parse] for integers: digits with an optional sign; rejects the empty string, other
    characters and values out of range. Used at parse/function.rs:59, process/stack.rs:56. *)
Fixpoint digits_val (acc : N) (t : text) : option N :=
  match t with
  | [] => Some acc
  | c :: t' => if is_digit c then digits_val (10 * acc + (c - 48)) t' else None
  end.
(** parse/function.rs:59, process/stack.rs:56. *)
Definition parse_digits (t : text) : option N :=
  match t with [] => None | _ => digits_val 0 t end.

(** [str::parse::<i32>]. Used at parse/function.rs:59. *)
Definition parse_i32 (t : text) : option Z :=
  let chk (neg : bool) (r : text) :=
    match parse_digits r with
    | None => None
    | Some n => let z := if neg then Z.opp (Z.of_N n) else Z.of_N n in
                if (Z.leb (-2147483648) z && Z.leb z 2147483647)%bool then Some z else None
    end in
  match t with
  | c :: r => if c =? c_minus then chk true r else if c =? c_plus then chk false r else chk false t
  | [] => None
  end.

(** [str::parse::<usize>] on a 64-bit target. Used at process/stack.rs:56. *)
Definition parse_usize (t : text) : option N :=
  let chk (r : text) :=
    match parse_digits r with
    | None => None
    | Some n => if n <? 18446744073709551616 then Some n else None
    end in
  match t with
  | c :: r => if c =? c_plus then chk r else chk t
  | [] => None
  end.

(** [ToString] for integers: decimal, no leading zeros.
    Used at timetoread.rs:59 and stuart/src/error.rs:102-150, and to recognise array index keys, stuart/src/plugins/js/json.rs:86-88. *)
Fixpoint dec_aux (fuel : nat) (n : N) (acc : text) : text :=
  match fuel with
  | O => acc
  | S f => let acc' := (48 + n mod 10) :: acc in
           if n <? 10 then acc' else dec_aux f (n / 10) acc'
  end.
(** [to_string] of a [usize] or [u32], timetoread.rs:59, stuart/src/error.rs:102. *)
Definition show_N (n : N) : text := dec_aux (S (N.to_nat (N.log2 n))) n [].
(** [to_string] of a signed number.  Only the specification of printed templates uses it, for the integers of parse/function.rs:59. *)
Definition show_Z (z : Z) : text :=
  match z with
  | Z0 => [48]
  | Zpos p => show_N (Npos p)
  | Zneg p => c_minus :: show_N (Npos p)
  end.

(** [Iterator::skip], [Iterator::take] with a [usize] argument. Used at for.rs:208,224. *)
Fixpoint skip_n {A} (n : N) (l : list A) : list A :=
  match l with
  | [] => []
  | x :: l' => if n =? 0 then l else skip_n (n - 1) l'
  end.
(** for.rs:228. *)
Fixpoint take_n {A} (n : N) (l : list A) : list A :=
  match l with
  | [] => []
  | x :: l' => if n =? 0 then [] else x :: take_n (n - 1) l'
  end.
