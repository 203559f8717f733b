(** SpecBlocks.v -- opening and closing blocks, conditions, sections, and the text functions
    (C22 to C30). *)

From Coq Require Import String List NArith ZArith Bool.
From Verif Require Import Text Utf8 Json Base Syntax Parse Tree Interp Build SpecScope SpecPage SpecRender SpecTemplate.
Import ListNotations.

(** ** Blocks *)
Inductive opener := OSection (label : text) (custom : bool) | OLoop (f : for_fn) | OTest (c : test).

Definition opener_fn (o : opener) : func :=
  match o with OSection label custom => FBegin label custom | OLoop f => FFor f | OTest c => test_fn c end.

(** The block is entered with the new innermost scope [vs]. *)
Definition enters (h : host) (site : node) (o : opener) (sc : scopes) (vs : list (text * value)) : Prop :=
  match o with
  | OSection _ _ => vs = []
  | OLoop f => exists items v rest, for_values (World h site []) f (frames sc) = Ok items /\
                 select f items = v :: rest /\ vs = [(ff_var f, v)]
  | OTest c => holds c sc = Ok true /\ vs = []
  end.

(** Does [end(label)], or [end("label")] when [custom], close the block? *)
Definition closes (label : text) (custom : bool) (o : opener) : Prop :=
  if custom then exists c, o = OSection label c
  else match o with
       | OSection _ _ => label = lit "begin"
       | OLoop _ => label = lit "for"
       | OTest c => label = test_name c
       end.
Definition is_test (o : opener) : Prop := match o with OTest _ => True | _ => False end.

(** A frame pushed by the block. *)
Definition pushed_by (o : opener) (f : frame) : Prop :=
  match o with
  | OSection label _ => fr_name f = lit "begin:" ++ label
  | OLoop g => fr_name f = lit "for:" ++ ff_var g
  | OTest (TDefined v) => fr_name f = lit "ifdefined:" ++ v
  | OTest (TCompare c a b) => fr_name f = cmp_name c ++ lit ":" ++ show_input a ++ lit ":" ++ show_input b
  end.

(** The scope in which the tags of a page are processed. *)
Definition page_frame (b : frame) (p : page) (f : frame) : Prop :=
  match p with
  | PageHtml _ => f = b
  | PageMd _ m => exists v, md_to_value (E := unit) m = Ok v /\ f = Frame (fr_name b) (fr_vars b ++ [(lit "self", v)]) (fr_out b)
  end.
(** Some block is still open after the tags of the page. *)
Definition leaves_open (pr : processor) (e : env) (p : page) : Prop :=
  exists b f s, pr_base pr = Some b /\ ~ In c_colon (fr_name f) /\ page_frame b p f /\
    phase pr (page_tokens e p) [f] [] = Ok s /\ (length (sc_stack s) > 1)%nat.

(** A conditional between two raw texts. *)
Definition raw (t : text) : ltoken := LTok (TRaw t) (Loc [] 0 0).
Definition either (l : loc) (c : test) (yes no : text) : list ltoken :=
  [LTok (TFun (test_fn c)) l; raw yes; LTok (TFun FElse) l; raw no; LTok (TFun (FEnd (test_name c) false)) l].

(** ** Conditions *)

(** A number truncated towards zero to the range of 32-bit integers. *)
Definition clamped (q z : Z) : Prop :=
  (z = q /\ i32_min <= q <= i32_max \/ z = i32_min /\ q < i32_min \/ z = i32_max /\ q > i32_max)%Z.
Definition truncated (f : f64) (z : Z) : Prop :=
  match f with
  | FNan => z = 0%Z
  | FInf neg => z = if neg then i32_min else i32_max
  | FFin m e => exists q, clamped q z /\
      (((0 <= e)%Z /\ q = (m * 2 ^ e)%Z) \/
       ((e < 0)%Z /\ (Z.abs q * 2 ^ (- e) <= Z.abs m < (Z.abs q + 1) * 2 ^ (- e))%Z /\ (q = 0 \/ Z.sgn q = Z.sgn m)%Z))
  end.

Inductive operand := OpInt (z : Z) | OpStr (s : text).
(** The value of an argument of a comparison. *)
Inductive operand_of (st : list frame) : input -> operand -> Prop :=
| oo_int z : operand_of st (IInt z) (OpInt z)
| oo_str s : operand_of st (IStr s) (OpStr s)
| oo_var_str h p v0 s : ~ In c_dot h -> Forall (fun k => ~ In c_dot k) p -> visible h st v0 -> field v0 p (VStr s) ->
    operand_of st (IVar (dotted h p)) (OpStr s)
| oo_var_num h p v0 f z : ~ In c_dot h -> Forall (fun k => ~ In c_dot k) p -> visible h st v0 -> field v0 p (VNum f) ->
    truncated f z -> operand_of st (IVar (dotted h p)) (OpInt z).

(** What the comparisons mean. *)
Definition compares (c : cmp) (x y : operand) : Prop :=
  match c with
  | CEq => x = y
  | CNe => x <> y
  | _ => match x, y with
         | OpInt a, OpInt b =>
             match c with CGt => (a > b)%Z | CGe => (a >= b)%Z | CLt => (a < b)%Z | _ => (a <= b)%Z end
         | _, _ => False
         end
  end.

(** ** Text functions *)

(** Text without its tags: what is between [<] and [>] is dropped, with these characters. *)
Fixpoint untag (inside : bool) (t : text) : text :=
  match t with
  | [] => []
  | c :: t' =>
      if (c =? c_lt)%N then untag true t'
      else if (c =? c_gt)%N then untag false t'
      else if inside then untag inside t' else c :: untag inside t'
  end.
(** [c] is the shortest beginning of [s] whose text reaches [n] bytes, or all of [s] if none does. *)
Definition reads (n : N) (s c rest : text) : Prop :=
  s = c ++ rest /\ (rest = [] \/ (n <= byte_len (untag false c))%N) /\
  forall c' x y, c = c' ++ x :: y -> (byte_len (untag false c') < n)%N.
Definition ascii (t : text) : Prop := Forall (fun c => (c < 128)%N) t.

(** The words of a text: maximal runs of characters that are not white space. *)
Inductive words : text -> list text -> Prop :=
| wo_none a : blank a -> words a []
| wo_word a w b ws : blank a -> w <> [] -> Forall (fun c => white c = false) w ->
    (b = [] \/ exists c b', b = c :: b' /\ white c = true) -> words b ws -> words (a ++ w ++ b) (w :: ws).
(** Decimal notation without leading zeros. *)
Definition decimal (n : N) (t : text) : Prop :=
  digits n t /\ forall c r, t = 48%N :: c :: r -> False.
