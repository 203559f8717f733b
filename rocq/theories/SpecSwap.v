(** SpecSwap.v -- templates in which blocks have been replaced by others that print the same (C91). *)

From Coq Require Import String List NArith ZArith Bool.
From Verif Require Import Text Utf8 Json Base Syntax Parse Tree Build Disk Cli SpecChars SpecScope SpecRender SpecBlocks SpecLoop SpecTree SpecDisk SpecProject SpecSite.
Import ListNotations.

(** ** Blocks *)
Section Swap.
  Variable date : option (text -> text -> option text).
  Variable json_at : text -> value -> Prop.
  Variable posts_at : text -> list value -> Prop.

  (** Blocks that print the same, bind the same and record the same wherever they stand.  (A branch
      not taken may hold no blocks with something inside, C23: both have them or neither.  And in a
      branch plugin functions must have names, C57.) *)
  Definition interchangeable (l l' : list block) : Prop :=
    (Forall simple l <-> Forall simple l') /\ (Forall named_calls l <-> Forall named_calls l') /\
    forall sc secs o new secs', prints date json_at posts_at l sc secs o new secs' <-> prints date json_at posts_at l' sc secs o new secs'.
  (** Some of the blocks of a template, at any depth, replaced by others. *)
  Inductive rewritten : list block -> list block -> Prop :=
  | rw_same l : rewritten l l
  | rw_swap l l' : interchangeable l l' -> rewritten l l'
  | rw_app a a' b b' : rewritten a a' -> rewritten b b' -> rewritten (a ++ b) (a' ++ b')
  | rw_section label body body' : rewritten body body' -> rewritten [BSection label body] [BSection label body']
  | rw_for f body body' : rewritten body body' -> rewritten [BFor f body] [BFor f body']
  | rw_if c yes yes' : rewritten yes yes' -> rewritten [BIf c yes] [BIf c yes']
  | rw_ifelse c yes yes' no no' : rewritten yes yes' -> rewritten no no' -> rewritten [BIfElse c yes no] [BIfElse c yes' no']
  | rw_trans a b c : rewritten a b -> rewritten b c -> rewritten a c.
End Swap.

(** ** Sites *)
Section Site.
  Variable h : host.
  Variable ps : list plugin.
  Variable date : option (text -> text -> option text).
  Variable json_at : text -> value -> Prop.
  Variable posts_at : text -> list value -> Prop.
  (** The variables of all pages. *)
  Variable vars : list (text * value).
  Let fns := map (fun p => (pl_name p, pl_fns p)) ps.

  (** Two templates that print and record the same as wholes.  They may bind different variables. *)
  Definition same_whole (l l' : list block) : Prop :=
    forall vs secs o secs', vs = vars \/ (exists v, vs = vars ++ [(lit "self", v)]) ->
      ((exists new, prints date json_at posts_at l [vs] secs o new secs') <-> (exists new, prints date json_at posts_at l' [vs] secs o new secs')).
  Definition rewritten_text (b b' : bytes) : Prop :=
    exists t t' l l', utf8_text b t /\ utf8_text b' t' /\ written (h_ext h) fns t l /\ written (h_ext h) fns t' l' /\
      (rewritten date json_at posts_at l l' \/ same_whole l l').
  (** Two directories that differ in this way in their HTML files. *)
  Inductive swapped : text -> ent -> ent -> Prop :=
  | sw_same name b : swapped name (EFile b) (EFile b)
  | sw_other name : swapped name EOther EOther
  | sw_file name b b' : has_ext name (lit "html") -> rewritten_text b b' -> swapped name (EFile b) (EFile b')
  | sw_dir name l l' : Forall2 (fun x x' => fst x = fst x' /\ swapped (fst x) (snd x) (snd x')) l l' -> swapped name (EDir l) (EDir l').
End Site.
(** Two sites: the first one says what the data are. *)
Definition swapped_site (h : host) (ps : list plugin) (vars : list (text * value)) (content content' : ent) : Prop :=
  swapped h ps (h_date h) (site_json h content) (site_posts h ps vars content) vars [] content content'.

(** ** Comparisons *)
(** The comparison to make with the operands exchanged. *)
Definition turned (c : cmp) : option cmp :=
  match c with CEq => Some CEq | CNe => Some CNe | CGt => Some CLt | CLt => Some CGt | _ => None end.

(** ** Loops *)
(** The loop that stops after [n], and the one that goes on from there. *)
Definition first_part (n : N) (f : for_fn) : for_fn :=
  ForFn (ff_var f) (ff_src f) (ff_type f) (ff_skip f) (Some n) (ff_sort f) (ff_desc f).
Definition second_part (n : N) (f : for_fn) : for_fn :=
  ForFn (ff_var f) (ff_src f) (ff_type f) (Some (match ff_skip f with Some s => s | None => 0 end + n)%N)
    (match ff_limit f with Some l => Some (l - n)%N | None => None end) (ff_sort f) (ff_desc f).
(** The loop without [skip], and without [limit]. *)
Definition no_skip (f : for_fn) : for_fn := ForFn (ff_var f) (ff_src f) (ff_type f) None (ff_limit f) (ff_sort f) (ff_desc f).
Definition no_limit (f : for_fn) : for_fn := ForFn (ff_var f) (ff_src f) (ff_type f) (ff_skip f) None (ff_sort f) (ff_desc f).

(** ** Projects *)
(** What building a project asks for, apart from its content: C62. *)
Definition project_ready (c : context) (d content statics : ent) : Prop :=
  lookup (cx_dir c ++ [lit "content"]) d = Some content /\
  (lookup (cx_dir c ++ [lit "static"]) d = Some statics \/ (lookup (cx_dir c ++ [lit "static"]) d = None /\ statics = EDir [])) /\
  lookup (cx_dir c ++ [lit "temp"]) d = None /\ ent_distinct d /\ inward_project c d /\ static_in_order statics /\
  output_dir c <> [] /\ what (parent (output_dir c)) d = KDir /\ (what (output_dir c) d = KNone \/ what (output_dir c) d = KDir).
