(** SpecTemplate.v -- specification of the template language: how templates are written.
    Uses only the data types of the model. *)

From Coq Require Import String List NArith ZArith Bool.
From Verif Require Import Text Base Syntax.
From Verif Require Export SpecChars.
Import ListNotations.
Local Open Scope N_scope.

Definition open_tag : text := [c_lbrace; c_lbrace].
Definition close_tag : text := [c_rbrace; c_rbrace].

(** Escaping: a backslash goes in front of every pair of opening braces; a run of odd length
    starts with its unpaired brace.  [run t] is the number of opening braces [t] starts with. *)
Fixpoint run (t : text) : nat :=
  match t with c :: t' => if c =? c_lbrace then S (run t') else O | [] => O end.
Fixpoint escape (t : text) : text :=
  match t with
  | [] => []
  | c :: t' =>
      if (c =? c_lbrace) && Nat.even (run t) then c_bslash :: c :: escape t' else c :: escape t'
  end.

(** A text that can be followed directly by a tag. *)
Definition can_precede_tag (t : text) : Prop :=
  forall u c, t = u ++ [c] -> c <> c_lbrace /\ c <> c_bslash.

(** The names of the built-ins. *)
Definition builtin_names : list text :=
  map lit ["begin"; "dateformat"; "else"; "end"; "excerpt"; "for"; "ifdefined"; "import"; "insert";
           "timetoread"; "ifeq"; "ifne"; "ifgt"; "ifge"; "iflt"; "ifle"]%string.

(** Well-formed arguments and how they are written. *)
Definition arg_ok (ext : char -> bool) (a : rawarg) : Prop :=
  match a with
  | AVar v => forallb (var_point ext) v = true
  | AStr s => ~ In c_quote s
  | AInt z => (-2147483648 <= z <= 2147483647)%Z
  | AIdent s => In s builtin_names
  end.
Inductive arg_text : rawarg -> text -> Prop :=
| ar_var v : arg_text (AVar v) ([c_dollar] ++ v)
| ar_str s : arg_text (AStr s) ([c_quote] ++ s ++ [c_quote])
| ar_int z t : integer t z -> arg_text (AInt z) t
| ar_ident s : arg_text (AIdent s) s.
(** A positional or named argument. *)
Definition parg := (option text * rawarg)%type.
Definition parg_ok (ext : char -> bool) (a : parg) : Prop :=
  arg_ok ext (snd a) /\
  match fst a with Some n => n <> [] /\ forallb (arg_point ext) n = true | None => True end.
Inductive parg_text : parg -> text -> Prop :=
| pt_pos a t : arg_text a t -> parg_text (None, a) t
| pt_named n a t : arg_text a t -> parg_text (Some n, a) (n ++ [c_eq] ++ t).

(** The text between the parentheses of a call. *)
Inductive args_text : list parg -> text -> Prop :=
| at_none w : blank w -> args_text [] w
| at_one w1 a p w2 : blank w1 -> blank w2 -> parg_text a p -> args_text [a] (w1 ++ p ++ w2)
| at_more w1 a p w2 b l t : blank w1 -> blank w2 -> parg_text a p -> args_text (b :: l) t ->
    args_text (a :: b :: l) (w1 ++ p ++ w2 ++ [c_comma] ++ t).

(** Positional arguments first, then named ones. *)
Definition pargs (pos : list rawarg) (named : list (text * rawarg)) : list parg :=
  map (fun a => (None, a)) pos ++ map (fun na => (Some (fst na), snd na)) named.

(** What is written between the braces of a tag. *)
Inductive tag := GVar (v : text) | GCall (name : text) (pos : list rawarg) (named : list (text * rawarg)).
Inductive tag_body (ext : char -> bool) : tag -> text -> Prop :=
| tb_var v : v <> [] -> forallb (var_point ext) v = true -> tag_body ext (GVar v) (c_dollar :: v)
| tb_call name w pos named t :
    name <> [] -> forallb (fun_point ext) name = true -> blank w ->
    Forall (parg_ok ext) (pargs pos named) -> args_text (pargs pos named) t ->
    tag_body ext (GCall name pos named) (name ++ w ++ [c_lparen] ++ t ++ [c_rparen]).

(** A template: raw text and tags alternating, then raw text.  [template_text ext l r t] says
    that [t] is a way of writing it. *)
Inductive template_text (ext : char -> bool) : list (text * tag) -> text -> text -> Prop :=
| tt_end r : template_text ext [] r (escape r)
| tt_tag s g w1 b w2 l r t :
    can_precede_tag s -> blank w1 -> blank w2 -> tag_body ext g b ->
    template_text ext l r t ->
    template_text ext ((s, g) :: l) r (escape s ++ open_tag ++ w1 ++ b ++ w2 ++ close_tag ++ t).

(** The function denoted by a call of a built-in. *)
Definition opt_count (n : text) (l : list (text * rawarg)) : nat :=
  length (filter (fun na => text_eqb (fst na) n) l).
Definition opt_value (n : text) (l : list (text * rawarg)) : option rawarg :=
  match filter (fun na => text_eqb (fst na) n) l with na :: _ => Some (snd na) | [] => None end.
Definition opt_last (n : text) (l : list (text * rawarg)) : option rawarg :=
  opt_value n (rev l).
(** Legal options of [for]: known names, right kinds, all but [order] at most once. *)
Definition for_option_ok (na : text * rawarg) : Prop :=
  (fst na = lit "skip" /\ exists z, snd na = AInt z /\ (0 <= z)%Z) \/
  (fst na = lit "limit" /\ exists z, snd na = AInt z /\ (0 <= z)%Z) \/
  (fst na = lit "sortby" /\ exists v, snd na = AVar v) \/
  (fst na = lit "order" /\ (snd na = AStr (lit "asc") \/ snd na = AStr (lit "desc"))).
Definition int_opt (o : option rawarg) : option N :=
  match o with Some (AInt z) => Some (Z.to_N z) | _ => None end.
Definition var_opt (o : option rawarg) : option text :=
  match o with Some (AVar v) => Some v | _ => None end.
Definition is_desc (o : option rawarg) : bool :=
  match o with Some (AStr s) => text_eqb s (lit "desc") | _ => false end.
Inductive for_src : rawarg -> text -> for_source -> Prop :=
| fs_json r : for_src (AStr (r ++ lit ".json")) (r ++ lit ".json") SrcJson
| fs_dir r : for_src (AStr (r ++ lit "/")) (r ++ lit "/") SrcDir
| fs_var v : for_src (AVar v) v SrcVar.
Inductive operand : rawarg -> input -> Prop :=
| op_var v : operand (AVar v) (IVar v)
| op_str s : operand (AStr s) (IStr s)
| op_int z : operand (AInt z) (IInt z).

Inductive builtin_call : text -> list rawarg -> list (text * rawarg) -> func -> Prop :=
| bc_begin_s l : builtin_call (lit "begin") [AStr l] [] (FBegin l true)
| bc_begin_i l : builtin_call (lit "begin") [AIdent l] [] (FBegin l false)
| bc_end_s l : builtin_call (lit "end") [AStr l] [] (FEnd l true)
| bc_end_i l : builtin_call (lit "end") [AIdent l] [] (FEnd l false)
| bc_date v f : builtin_call (lit "dateformat") [AVar v; AStr f] [] (FDate v f)
| bc_else : builtin_call (lit "else") [] [] FElse
| bc_excerpt v z : (0 <= z)%Z ->
    builtin_call (lit "excerpt") [AVar v; AInt z] [] (FExcerpt v (Z.to_N z))
| bc_ifdef v : builtin_call (lit "ifdefined") [AVar v] [] (FIfDefined v)
| bc_import v f : builtin_call (lit "import") [AVar v; AStr f] [] (FImport v f)
| bc_insert l : builtin_call (lit "insert") [AStr l] [] (FInsert l)
| bc_time v : builtin_call (lit "timetoread") [AVar v] [] (FTime v)
| bc_ifeq a b x y : operand a x -> operand b y -> builtin_call (lit "ifeq") [a; b] [] (FIf CEq x y)
| bc_ifne a b x y : operand a x -> operand b y -> builtin_call (lit "ifne") [a; b] [] (FIf CNe x y)
| bc_ifgt a b x y : operand a x -> operand b y -> builtin_call (lit "ifgt") [a; b] [] (FIf CGt x y)
| bc_ifge a b x y : operand a x -> operand b y -> builtin_call (lit "ifge") [a; b] [] (FIf CGe x y)
| bc_iflt a b x y : operand a x -> operand b y -> builtin_call (lit "iflt") [a; b] [] (FIf CLt x y)
| bc_ifle a b x y : operand a x -> operand b y -> builtin_call (lit "ifle") [a; b] [] (FIf CLe x y)
| bc_for v b s ty named :
    for_src b s ty -> Forall for_option_ok named ->
    (opt_count (lit "skip") named <= 1)%nat -> (opt_count (lit "limit") named <= 1)%nat ->
    (opt_count (lit "sortby") named <= 1)%nat ->
    builtin_call (lit "for") [AVar v; b] named
      (FFor (ForFn v s ty
        (int_opt (opt_value (lit "skip") named)) (int_opt (opt_value (lit "limit") named))
        (var_opt (opt_value (lit "sortby") named)) (is_desc (opt_last (lit "order") named)))).

(** The plugin function a name stands for: the first one, in the order of the table, called so or
    [plugin::name]. *)
Definition answers (name plugin : text) (f : plugin_parser) : Prop :=
  name = pp_name f \/ name = plugin ++ lit "::" ++ pp_name f.
Definition flat_table (t : list (text * list plugin_parser)) : list (text * plugin_parser) :=
  flat_map (fun p => map (fun f => (fst p, f)) (snd p)) t.
Definition first_plugin (t : list (text * list plugin_parser)) (name : text) (f : plugin_parser) : Prop :=
  exists l1 p l2, flat_table t = l1 ++ (p, f) :: l2 /\ answers name p f /\
    Forall (fun pf => ~ answers name (fst pf) (snd pf)) l1.

(** The function a call denotes. *)
Inductive denotes (t : list (text * list plugin_parser)) : tag -> token -> Prop :=
| de_var v : denotes t (GVar v) (TVar v)
| de_builtin name pos named f :
    builtin_call name pos named f -> denotes t (GCall name pos named) (TFun f)
| de_plugin name pos named p g :
    ~ In name builtin_names -> first_plugin t name p ->
    pp_parse p (RawFn name pos named) = inr g ->
    denotes t (GCall name pos named) (TFun (FPlugin g)).

(** The tokens of a template: empty raw texts give no token. *)
Definition raw_part (s : text) : list token := match s with [] => [] | _ => [TRaw s] end.
Inductive template_tokens (t : list (text * list plugin_parser)) : list (text * tag) -> text -> list token -> Prop :=
| tk_end r : template_tokens t [] r (raw_part r)
| tk_tag s g l r k ks : denotes t g k -> template_tokens t l r ks ->
    template_tokens t ((s, g) :: l) r (raw_part s ++ k :: ks).

(** A sequence of raw texts and tags, without the final raw text. *)
Inductive tags_text (ext : char -> bool) : list (text * tag) -> text -> Prop :=
| tx_nil : tags_text ext [] []
| tx_cons s g w1 b w2 l t :
    can_precede_tag s -> blank w1 -> blank w2 -> tag_body ext g b -> tags_text ext l t ->
    tags_text ext ((s, g) :: l) (escape s ++ open_tag ++ w1 ++ b ++ w2 ++ close_tag ++ t).

(** The start of a call, up to its closing parenthesis, with arguments in any order. *)
Inductive call_text (ext : char -> bool) : text -> list parg -> text -> Prop :=
| ct_call name w l t : name <> [] -> forallb (fun_point ext) name = true -> blank w ->
    Forall (parg_ok ext) l -> args_text l t ->
    call_text ext name l (name ++ w ++ [c_lparen] ++ t ++ [c_rparen]).

(** A positional argument after a named one. *)
Definition misplaced (l : list parg) : Prop :=
  exists l1 n a l2 b l3, l = l1 ++ (Some n, a) :: l2 ++ (None, b) :: l3.

(** Nothing in the table answers to the name. *)
Definition unknown (t : list (text * list plugin_parser)) (name : text) : Prop :=
  ~ In name builtin_names /\ forall p f, In (p, f) (flat_table t) -> ~ answers name p f.

Definition fails_with {A} (k : parse_error) (r : res (traceback parse_error) A) : Prop :=
  exists e, r = Err e /\ tb_kind e = k.
