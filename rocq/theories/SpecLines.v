(** SpecLines.v -- sources that differ in the way their lines end only: with a line feed, or with a
    carriage return and a line feed (C100). *)

From Coq Require Import String List NArith ZArith Bool.
From Verif Require Import Text Utf8 Json Base Syntax Parse Tree Interp Build SpecTemplate SpecGrammar SpecUtf8 SpecTree SpecReads.
Import ListNotations.
Local Open Scope N_scope.

(** The two ways of ending a line. *)
Definition line_end (e : list N) : Prop := e = [c_lf] \/ e = [c_cr; c_lf].
(** The same characters (or bytes), all with [P], up to the way lines end. *)
Inductive same_but (P : N -> Prop) : list N -> list N -> Prop :=
| sb_nil : same_but P [] []
| sb_char c t t' : P c -> same_but P t t' -> same_but P (c :: t) (c :: t')
| sb_break e e' t t' : line_end e -> line_end e' -> same_but P t t' -> same_but P (e ++ t) (e' ++ t').
(** Texts with the same lines; in neither there is a carriage return but at the end of a line. *)
Definition same_lines : text -> text -> Prop := same_but (fun c => c <> c_cr /\ c <> c_lf).
(** Contents that differ in the way some lines end. *)
Definition same_but_breaks : bytes -> bytes -> Prop := same_but (fun _ => True).

(** No tag has a text argument that goes over the end of a line. *)
Definition one_line_arg (a : rawarg) : Prop := match a with AStr s => ~ In c_lf s | _ => True end.
Definition one_line_tag (g : tag) : Prop :=
  match g with
  | GVar _ => True
  | GCall _ pos named => Forall one_line_arg pos /\ Forall (fun na => one_line_arg (snd na)) named
  end.
Definition one_line (ext : char -> bool) (t : text) : Prop :=
  forall l r, loose_template ext l r t -> Forall (fun sg => one_line_tag (snd sg)) l.

(** A source file and the same file with other line ends.  How texts in JSON files are read is up to the
    JSON library, and what plugins make of files up to them: such files are not changed, or the library
    does not see the change. *)
Inductive file_lines (h : host) (ps : list plugin) (name : text) : bytes -> bytes -> Prop :=
| fl_same b : file_lines h ps name b b
| fl_text b b' t t' : utf8_text b t -> utf8_text b' t' -> same_lines t t' ->
    (has_ext name (lit "html") -> one_line (h_ext h) t) ->
    (has_ext name (lit "json") -> h_json h t' = h_json h t) ->
    (forall x np, has_ext name x -> ~ In x parsed_exts -> ~ in_charge ps x np) ->
    file_lines h ps name b b'.
Inductive sources_lines (h : host) (ps : list plugin) : text -> ent -> ent -> Prop :=
| sl_file name b b' : file_lines h ps name b b' -> sources_lines h ps name (EFile b) (EFile b')
| sl_dir name l l' : Forall2 (fun x x' => fst x' = fst x /\ sources_lines h ps (fst x) (snd x) (snd x')) l l' ->
    sources_lines h ps name (EDir l) (EDir l')
| sl_other name : sources_lines h ps name EOther EOther.

(** What comes out: the same files, up to the way lines end. *)
Inductive output_lines : node -> node -> Prop :=
| ol_file name b b' pc meta src : same_but_breaks b b' -> output_lines (NFile name b pc meta src) (NFile name b' pc meta src)
| ol_dir name ch ch' src : Forall2 output_lines ch ch' -> output_lines (NDir name ch src) (NDir name ch' src).
Definition opt_lines {B} (R : B -> B -> Prop) (o o' : option B) : Prop :=
  match o, o' with Some x, Some x' => R x x' | None, None => True | _, _ => False end.

(** Plugins to which line ends of what is written around their tags, and the places of these tags, do not
    matter. *)
Definition frame_lines (f f' : frame) : Prop :=
  fr_name f' = fr_name f /\ fr_vars f' = fr_vars f /\ same_but_breaks (fr_out f) (fr_out f').
Definition scope_lines (s s' : scope) : Prop :=
  sc_idx s' = sc_idx s /\ Forall2 frame_lines (sc_stack s) (sc_stack s') /\
  Forall2 (fun a a' => fst a' = fst a /\ same_but_breaks (snd a) (snd a')) (sc_secs s) (sc_secs s').
Inductive token_lines : token -> token -> Prop :=
| tl_raw r r' : same_lines r r' -> token_lines (TRaw r) (TRaw r')
| tl_same k : token_lines k k.
Definition tokens_lines (l l' : list ltoken) : Prop := Forall2 (fun t t' => token_lines (t_inner t) (t_inner t')) l l'.
Definition env_lines (e e' : env) : Prop :=
  ev_vars e' = ev_vars e /\ opt_lines tokens_lines (ev_root e) (ev_root e') /\ opt_lines tokens_lines (ev_md e) (ev_md e').
Definition blind_fn (p : plugin_fn) : Prop :=
  forall l l' s s' s1, scope_lines s s' -> pf_exec p l s = Ok s1 -> exists s1', pf_exec p l' s' = Ok s1' /\ scope_lines s1 s1'.
Definition blind_processor (c : node_processor) : Prop :=
  forall e e' o, env_lines e e' -> np_process c e = inr o -> exists o', np_process c e' = inr o' /\
    po_name o' = po_name o /\ opt_lines same_but_breaks (po_contents o) (po_contents o').
Definition line_blind (ps : list plugin) : Prop :=
  forall pl, In pl ps ->
    (forall f raw g, In f (pl_fns pl) -> pp_parse f raw = inr g -> blind_fn g) /\
    (forall np b p c, In np (pl_parsers pl) -> npa_parse np b p = inr c -> blind_processor c).

(** The same sources but for the way lines end in some markdown files. *)
Inductive posts_lines : text -> ent -> ent -> Prop :=
| pol_file name b b' : b = b' \/ (has_ext name (lit "md") /\ exists t t', utf8_text b t /\ utf8_text b' t' /\ same_lines t t') -> posts_lines name (EFile b) (EFile b')
| pol_dir name l l' : Forall2 (fun x x' => fst x' = fst x /\ posts_lines (fst x) (snd x) (snd x')) l l' -> posts_lines name (EDir l) (EDir l')
| pol_other name : posts_lines name EOther EOther.
