(** SpecLoop.v -- what a loop visits (C21). *)

From Coq Require Import String List NArith ZArith Bool Sorting.Sorted Sorting.Permutation.
From Verif Require Import Text Utf8 Json Base Syntax Parse Tree SpecScope SpecRender.
Import ListNotations.

(** Alphabetical order by code points. *)
Inductive lex_le : text -> text -> Prop :=
| ll_nil t : lex_le [] t
| ll_lt a b s t : (a < b)%N -> lex_le (a :: s) (b :: t)
| ll_eq a s t : lex_le s t -> lex_le (a :: s) (a :: t).

(** [k] is the sort key of [v] for the sort variable [name]: the string found in [v] by following
    the fields after the first component of the name, and the empty string if there is none. *)
Definition ordering_key (name : text) (v : value) (k : text) : Prop :=
  exists h p, name = dotted h p /\ ~ In c_dot h /\ Forall (fun x => ~ In c_dot x) p /\
    (field v p (VStr k) \/ (k = [] /\ forall x, ~ field v p (VStr x))).

(** [us] is [vs] sorted by [key], and values with the same key are in the same order in both. *)
Definition stably_sorted (key : value -> text) (vs us : list value) : Prop :=
  Permutation vs us /\
  StronglySorted (fun a b => lex_le (key a) (key b)) us /\
  forall k, filter (fun v => text_eqb (key v) k) us = filter (fun v => text_eqb (key v) k) vs.

(** The values visited by a loop over [vs]. *)
Definition visits (f : for_fn) (vs out : list value) : Prop :=
  exists us us',
    match ff_sort f with
    | None => us = vs
    | Some name => exists key, (forall v, ordering_key name v (key v)) /\ stably_sorted key vs us
    end /\
    (ff_desc f = false -> us' = us) /\ (ff_desc f = true -> us' = rev us) /\
    exists dropped kept rest,
      us' = dropped ++ kept ++ rest /\ out = kept /\
      N.of_nat (length dropped) = N.min (match ff_skip f with Some n => n | None => 0 end) (N.of_nat (length us')) /\
      match ff_limit f with
      | None => rest = []
      | Some n => (N.of_nat (length kept) <= n)%N /\ (rest <> [] -> N.of_nat (length kept) = n)
      end.

(** The markdown files among [ns], in the same order, with their values. *)
Inductive posts : list node -> list value -> Prop :=
| po_nil : posts [] []
| po_post n m ns v vs : n_parsed n = PMarkdown m -> md_to_value (E := unit) m = Ok v -> posts ns vs -> posts (n :: ns) (v :: vs)
| po_other n ns vs : (forall m, n_parsed n <> PMarkdown m) -> posts ns vs -> posts (n :: ns) vs.

(** The values a loop is over: the markdown files of a directory of the site, the elements of a
    JSON file of the site, or the elements of an array held by a variable. *)
Inductive loop_source (site : node) (f : for_fn) (st : list frame) : list value -> Prop :=
| ls_dir name ch src vs : ff_type f = SrcDir -> get_at_path site (ff_src f) = Some (NDir name ch src) -> posts ch vs ->
    loop_source site f st vs
| ls_json name b vs meta src : ff_type f = SrcJson ->
    get_at_path site (ff_src f) = Some (NFile name b (PJson (VArr vs)) meta src) -> loop_source site f st vs
| ls_var h p v0 vs : ff_type f = SrcVar -> ff_src f = dotted h p -> ~ In c_dot h -> Forall (fun k => ~ In c_dot k) p ->
    visible h st v0 -> field v0 p (VArr vs) -> loop_source site f st vs.

(** The body once for each value, bound to the loop variable in a scope of its own. *)
Inductive each (h : host) (site : node) (body : list item) (name : text)
  : list value -> rstate -> bytes -> rstate -> Prop :=
| each_nil st : each h site body name [] st [] st
| each_cons v vs st o st1 o' st2 :
    render_all false h site body (RState ([(name, v)] :: rs_scopes st) (rs_secs st)) = RDone o st1 ->
    each h site body name vs (RState (rs_scopes st) (rs_secs st1)) o' st2 ->
    each h site body name (v :: vs) st (o ++ o') st2.
