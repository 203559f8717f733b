(** SpecLocation.v -- where tokens are: lines and columns as functions of the text before. *)

From Coq Require Import String List NArith Bool.
From Verif Require Import Text Base Syntax SpecTemplate.
Import ListNotations.
Local Open Scope N_scope.

Definition newlines (t : text) : N := N.of_nat (count_occ N.eq_dec t c_lf).

(** The line of the character that follows [pre]. *)
Definition line_after (pre : text) : N := 1 + newlines pre.

(** The part of [t] after its last LF, and its length without CR characters. *)
Fixpoint since_newline (t : text) : text :=
  match t with
  | [] => []
  | c :: t' => if (c =? c_lf) then since_newline t'
               else if contains_char c_lf t' then since_newline t' else c :: t'
  end.
Definition width (t : text) : N := N.of_nat (length (filter (fun c => negb (c =? c_cr)) t)).

(** The column Stuart gives to the character that follows [pre]: counted from 1 on the first line
    and from 0 on the others. *)
Definition column_after (pre : text) : N :=
  (if newlines pre =? 0 then 1 else 0) + width (since_newline pre).

(** The position of the last character of [pre]; (1,1) at the start of the text. *)
Definition last_position (pre : text) : N * N :=
  match rev pre with
  | [] => (1, 1)
  | _ :: r => (line_after (rev r), column_after (rev r))
  end.

(** What a tag looks like between its braces, up to the closing ones. *)
Inductive tag_source (ext : char -> bool) : token -> text -> Prop :=
| ts_var v w : v <> [] -> forallb (var_point ext) v = true -> blank w ->
    tag_source ext (TVar v) (c_dollar :: v ++ w)
| ts_fun f name w args w' : name <> [] -> forallb (fun_point ext) name = true -> blank w -> blank w' ->
    tag_source ext (TFun f) (name ++ w ++ [c_lparen] ++ args ++ [c_rparen] ++ w').

(** [unescapes src raw]: [raw] is [src] with the backslash dropped from some escaped pairs. *)
Inductive unescapes : text -> text -> Prop :=
| un_nil : unescapes [] []
| un_char c a b : unescapes a b -> unescapes (c :: a) (c :: b)
| un_escape a b : unescapes a b -> unescapes (c_bslash :: open_tag ++ a) (open_tag ++ b).

(** The source [src], followed by [tail], is recorded as a raw token at [pos], if not empty. *)
Definition raw_at (file : path) (pos : N * N) (src tail : text) (ks : list ltoken) : Prop :=
  exists s, unescapes (src ++ tail) (s ++ tail) /\ ks = match s with [] => [] | _ :: _ => [LTok (TRaw s) (Loc file (fst pos) (snd pos))] end.

(** [located ext file pre t ks]: after [pre], the text [t] is made of the tokens [ks], every tag
    being recorded with the position of the last character before its first significant one, and
    every raw token with the position of the last character before it. *)
Inductive located (ext : char -> bool) (file : path) : text -> text -> list ltoken -> Prop :=
| lo_end pre t ks : raw_at file (last_position pre) t [] ks -> located ext file pre t ks
| lo_tag pre src w body t raw k ks :
    raw_at file (last_position pre) src open_tag raw -> blank w -> tag_source ext k body ->
    located ext file (pre ++ src ++ open_tag ++ w ++ body ++ close_tag) t ks ->
    located ext file pre (src ++ open_tag ++ w ++ body ++ close_tag ++ t)
      (raw ++ LTok k (Loc file (fst (last_position (pre ++ src ++ open_tag ++ w)))
                               (snd (last_position (pre ++ src ++ open_tag ++ w)))) :: ks).

(** The tag of token [k] starts in [input] after [before]. *)
Definition tag_at (ext : char -> bool) (input : text) (k : token) (before : text) : Prop :=
  exists src w body rest, before = src ++ open_tag ++ w /\ blank w /\ tag_source ext k body /\
    input = before ++ body ++ close_tag ++ rest.
Definition is_tag (k : token) : Prop := match k with TRaw _ => False | _ => True end.

(** [q] ends with the (partial) line [l]; [first] says whether it is the first line. *)
Definition last_line_is (q l : text) (first : bool) : Prop :=
  ~ In c_lf l /\ if first then q = l else exists p, q = p ++ [c_lf] ++ l.

(** Text made of raw text and complete tags, ending with a tag. *)
Inductive tagged (ext : char -> bool) : text -> Prop :=
| tg_nil : tagged ext []
| tg_tag a src w body k : tagged ext a -> blank w -> tag_source ext k body ->
    tagged ext (a ++ src ++ open_tag ++ w ++ body ++ close_tag).

Definition starts (P : char -> bool) (t : text) : Prop := exists c r, t = c :: r /\ P c = true.
(** The head of a call: its name up to the opening parenthesis. *)
Definition call_head (ext : char -> bool) (name t : text) : Prop :=
  exists w, name <> [] /\ forallb (fun_point ext) name = true /\ blank w /\ t = name ++ w.
(** The mistakes an argument can contain by itself. *)
Inductive argument_error : parse_error -> Prop :=
| ae_syntax : argument_error PE_GenericSyntaxError
| ae_order : argument_error PE_PositionalArgAfterNamedArg
| ae_name v : argument_error (PE_InvalidVariableName v).

(** [mistake ext plugins seen left e]: the text after opening braces is [seen ++ left], it does not
    begin with a complete tag, and the error [e] is found after reading [seen]. *)
Inductive mistake (ext : char -> bool) (plugins : list (text * list plugin_parser)) :
    text -> text -> parse_error -> Prop :=
| mi_eof seen : mistake ext plugins seen [] PE_UnexpectedEOF
| mi_variable w left : blank w -> ~ starts (var_point ext) left ->
    mistake ext plugins (w ++ [c_dollar]) left (PE_InvalidVariableName (lit "<empty>"))
| mi_function w c left : blank w -> white c = false -> c <> c_dollar -> fun_point ext c = false ->
    mistake ext plugins w (c :: left) (PE_InvalidFunctionName (lit "<empty>"))
| mi_paren w name h c left : blank w -> call_head ext name h -> c <> c_lparen ->
    mistake ext plugins (w ++ h ++ [c]) left (PE_Expected (lit "("))
| mi_argument w name h args left e : blank w -> call_head ext name h ->
    left = [] \/ starts (fun c => existsb (N.eqb c) (lit ",)")) left -> argument_error e ->
    mistake ext plugins (w ++ h ++ [c_lparen] ++ args) left e
| mi_unknown w name h args left : blank w -> call_head ext name h -> unknown plugins name ->
    mistake ext plugins w (h ++ [c_lparen] ++ args ++ [c_rparen] ++ left) (PE_NonexistentFunction name)
| mi_rejected w name h args w' left e : blank w -> call_head ext name h -> ~ unknown plugins name ->
    blank w' -> ~ starts white left ->
    mistake ext plugins (w ++ h ++ [c_lparen] ++ args ++ [c_rparen] ++ w') left e
| mi_close w k body c left : blank w -> tag_source ext k body -> c <> c_rbrace ->
    mistake ext plugins (w ++ body ++ [c]) left (PE_Expected close_tag)
| mi_close2 w k body c left : blank w -> tag_source ext k body -> c <> c_rbrace ->
    mistake ext plugins (w ++ body ++ [c_rbrace; c]) left (PE_Expected close_tag).
