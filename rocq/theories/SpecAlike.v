(** SpecAlike.v -- what it means that two runs differ only in where the sources are and in what
    the environment holds (C85, C86). *)

From Coq Require Import String List NArith ZArith Bool.
From Verif Require Import Text Utf8 Json Base Syntax Parse Tree Interp Build SpecScope SpecGrammar SpecBlame.
Import ListNotations.

(** [R] relates the paths of one run to those of the other; [A] are the environment variables
    about which both agree ([None]: the environment is the same). *)
Section Like.
  Variable R : path -> path -> Prop.
  Variable A : option (text -> Prop).

  (** Lists of bindings that agree. *)
  Definition agree {B} (l l' : list (text * B)) : Prop :=
    match A with
    | None => l' = l
    | Some N => forall x, N x -> forall v, first_binding x l v <-> first_binding x l' v
    end.
  (** Values of the variable [k]: the same, except for the fields of [env]. *)
  Definition like_value (k : text) (v v' : value) : Prop :=
    v' = v \/ k = lit "env" /\ exists l l', v = VObj l /\ v' = VObj l' /\ agree l l'.
  Definition like_frame (f f' : frame) : Prop :=
    fr_name f' = fr_name f /\ fr_out f' = fr_out f /\
    Forall2 (fun b b' => fst b' = fst b /\ like_value (fst b) (snd b) (snd b')) (fr_vars f) (fr_vars f').
  Definition like_scope (s s' : scope) : Prop :=
    sc_idx s' = sc_idx s /\ sc_secs s' = sc_secs s /\ Forall2 like_frame (sc_stack s) (sc_stack s').
  Definition like_loc (l l' : loc) : Prop :=
    R (l_path l) (l_path l') /\ l_line l' = l_line l /\ l_col l' = l_col l.
  (** Located errors of the same kind, at the same line and column. *)
  Definition like_tb {K} (e e' : traceback K) : Prop :=
    R (tb_path e) (tb_path e') /\ tb_line e' = tb_line e /\ tb_col e' = tb_col e /\ tb_kind e' = tb_kind e.
  (** The same tags at the same places. *)
  Definition like_token (t t' : ltoken) : Prop := t_inner t' = t_inner t /\ like_loc (t_loc t) (t_loc t').
  Definition like_tokens := Forall2 like_token.

  (** Both succeed, or both fail in the same way. *)
  Definition both {E B} (RE : E -> E -> Prop) (RB : B -> B -> Prop) (r r' : res E B) : Prop :=
    match r, r' with
    | Ok x, Ok x' => RB x x'
    | Err e, Err e' => RE e e'
    | Panic p, Panic p' => p' = p
    | OutOfFuel, OutOfFuel => True
    | _, _ => False
    end.
  Inductive like_error : error -> error -> Prop :=
  | le_missing p p' : R p p' -> like_error (E_Fs (FE_NotFound p)) (E_Fs (FE_NotFound p'))
  | le_read : like_error (E_Fs FE_Read) (E_Fs FE_Read)
  | le_parse t t' : like_tb t t' -> like_error (E_Parse t) (E_Parse t')
  | le_process t t' : like_tb t t' -> like_error (E_Process t) (E_Process t')
  | le_plugin m : like_error (E_Plugin m) (E_Plugin m).

  (** ** Plugins that do not mind *)
  Definition like_opt {B} (RB : B -> B -> Prop) (o o' : option B) : Prop :=
    match o, o' with Some x, Some x' => RB x x' | None, None => True | _, _ => False end.
  Definition like_env (e e' : env) : Prop :=
    agree (ev_vars e) (ev_vars e') /\ like_opt like_tokens (ev_root e) (ev_root e') /\
    like_opt like_tokens (ev_md e) (ev_md e').
  Definition like_processor (c c' : node_processor) : Prop :=
    np_json c' = np_json c /\ forall e e', like_env e e' -> np_process c' e' = np_process c e.
  (** Functions that do the same, given the same arguments. *)
  Definition steady_fn (f : plugin_fn) : Prop :=
    forall l l' s s', like_loc l l' -> like_scope s s' ->
      both like_tb like_scope (pf_exec f l s) (pf_exec f l' s').
  (** Parsers that make the same of the same bytes. *)
  Definition steady_parser (np : node_parser) : Prop :=
    forall b p p', R p p' ->
      match npa_parse np b p, npa_parse np b p' with
      | inl m, inl m' => m' = m
      | inr c, inr c' => like_processor c c'
      | _, _ => False
      end.
  Definition steady (ps : list plugin) : Prop := forall pl, In pl ps ->
    (forall f raw g, In f (pl_fns pl) -> pp_parse f raw = inr g -> steady_fn g) /\
    (forall np, In np (pl_parsers pl) -> steady_parser np).

  (** ** Output trees *)
  (** The same names, contents and metadata. *)
  Inductive like_output : node -> node -> Prop :=
  | lo_file name b meta src src' : R src src' -> like_output (NFile name b PNone meta src) (NFile name b PNone meta src')
  | lo_dir name ch ch' src src' : R src src' -> Forall2 like_output ch ch' -> like_output (NDir name ch src) (NDir name ch' src').
End Like.

(** ** Where the sources are *)
Definition moved (p p' q q' : path) : Prop := exists k, q = p ++ k /\ q' = p' ++ k.

(** ** Which variables tags read *)
Inductive reads_var : token -> text -> Prop :=
| rv_var v : reads_var (TVar v) v
| rv_date v f : reads_var (TFun (FDate v f)) v
| rv_excerpt v n : reads_var (TFun (FExcerpt v n)) v
| rv_time v : reads_var (TFun (FTime v)) v
| rv_defined v : reads_var (TFun (FIfDefined v)) v
| rv_left c v b : reads_var (TFun (FIf c (IVar v) b)) v
| rv_right c a v : reads_var (TFun (FIf c a (IVar v))) v
| rv_for f : ff_type f = SrcVar -> reads_var (TFun (FFor f)) (ff_src f).
(** [$env.x], or a field of it. *)
Inductive reads_env (t : token) (x : text) : Prop :=
| re_reads p : ~ In c_dot x -> reads_var t (dotted (lit "env") (x :: p)) -> reads_env t x.
(** Some file of the directory has a tag that reads it. *)
Definition mentioned (h : host) (ps : list plugin) (content : ent) (x : text) : Prop :=
  exists ks body toks k, tagged_text content ks body /\
    SpecGrammar.means (h_ext h) (map (fun p => (pl_name p, pl_fns p)) ps) body toks /\ In k toks /\ reads_env k x.
