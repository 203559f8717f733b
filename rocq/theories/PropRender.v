(** PropRender.v -- properties C20 to C33: blocks, loops, conditionals, sections, text functions,
    totality and errors of the interpreter. *)

From Coq Require Import String List NArith ZArith Bool Lia.
From Verif Require Import Text Utf8 Json Base Syntax Parse Tree Interp Build SpecScope SpecPage SpecRender SpecLoop SpecBlocks SpecUtf8
  InterpFacts RenderFacts SelectFacts BlockFacts LoopFacts TextFnFacts Utf8Facts TotalFacts Utf8Run.
Import ListNotations.

(** ** C20 *)
Theorem C20_block_structure_refuted : exists h site l f, Forall well_formed l /\
  (exists o st, render_all true h site l (RState [fr_vars f] []) = RDone o st) /\
  exists e, run (World h site (flat_map flat l)) (Scope 0 [f] []) = Err e.
Proof.
  exact (ex_intro _ no_host (ex_intro _ (NDir [] [] []) (ex_intro _ C22_items (ex_intro _ C22_base
    (conj (proj1 (all_wf_forall _) (proj1 loop_nothing_refuted))
    (conj (ex_intro _ _ (ex_intro _ _ (proj1 (proj2 loop_nothing_refuted)))) (ex_intro _ _ (proj2 (proj2 loop_nothing_refuted))))))))).
Qed.
Print Assumptions C20_block_structure_refuted.
Theorem C20_block_structure_partial : forall h site l f r secs, Forall sane l ->
  let st := RState (map fr_vars (f :: r)) secs in
  let result := run (World h site (flat_map flat l)) (Scope 0 (f :: r) secs) in
  render_all false h site l st <> ROdd ->
  match render_all true h site l st with
  | RDone o st' => exists new, rs_scopes st' = (fr_vars f ++ new) :: map fr_vars r /\
      result = Ok (Scope (length (flat_map flat l)) (Frame (fr_name f) (fr_vars f ++ new) (fr_out f ++ o) :: r) (rs_secs st'))
  | RStop e => result = Err e
  | RPanic p => result = Panic p
  | ROdd => False
  end.
Proof. exact block_structure. Qed.
Print Assumptions C20_block_structure_partial.
(** A loop over two items whose body has a conditional, inside a section. *)
Definition C20_items : list item :=
  let l := Loc [] 1 1 in
  [ISection l (lit "s") true
     [IFor l (ForFn (lit "x") (lit "xs") SrcVar None None None false)
        [IIfElse l (TCompare CEq (IVar (lit "x")) (IStr (lit "a"))) [ILeaf (raw (lit "A"))] l [ILeaf (LTok (TVar (lit "x")) l)] l] l;
      ILeaf (raw (lit "."))] true l].
Example C20_case :
  let f := Frame (lit "base") [(lit "xs", VArr [VStr (lit "a"); VStr (lit "b")])] [] in
  render_all false no_host (NDir [] [] []) C20_items (RState [fr_vars f] []) =
    RDone (enc (lit "Ab.")) (RState [fr_vars f] [(lit "s", enc (lit "Ab."))]) /\
  Forall sane C20_items.
Proof. split; [now vm_compute|]. repeat constructor. Qed.

(** ** C21 *)
Theorem C21_loop : forall h site l f body l' fr r secs vs out o st, Forall well_formed body ->
  loop_source site f (fr :: r) vs -> visits f vs out -> out <> [] ->
  each h site body (ff_var f) out (RState (map fr_vars (fr :: r)) secs) o st ->
  let toks := flat (IFor l f body l') in
  run (World h site toks) (Scope 0 (fr :: r) secs) =
  Ok (Scope (length toks) (Frame (fr_name fr) (fr_vars fr) (fr_out fr ++ o) :: r) (rs_secs st)).
Proof. exact loop_prints. Qed.
Print Assumptions C21_loop.
Theorem C21_order : forall f vs, exists out, visits f vs out /\ forall out', visits f vs out' -> out' = out.
Proof. exact (fun f vs => ex_intro _ (select f vs) (conj (select_visits f vs) (fun o H => visits_unique f vs o _ H (select_visits f vs)))). Qed.
Print Assumptions C21_order.
(** Rust compares the bytes of strings; this is the order of the code points. *)
Theorem C21_byte_order : forall a b x y, utf8_text x a -> utf8_text y b -> (bytes_ltb y x = false <-> lex_le a b).
Proof. exact byte_order. Qed.
Print Assumptions C21_byte_order.
(** Three items sorted by their title in descending order, skipping one: ties keep their order
    before the reversal. *)
Example C21_case :
  let item t n := VObj [(lit "t", VStr (lit t)); (lit "n", VStr (lit n))] in
  let f := ForFn (lit "x") (lit "xs") SrcVar (Some 1%N) (Some 2%N) (Some (lit "x.t")) true in
  visits f [item "b" "1"; item "a" "2"; item "b" "3"; item "c" "4"]%string [item "b" "3"; item "b" "1"]%string.
Proof. exact (select_visits (ForFn (lit "x") (lit "xs") SrcVar (Some 1%N) (Some 2%N) (Some (lit "x.t")) true) _). Qed.

(** ** C22 *)
Theorem C22_empty_loop_refuted : exists h site l f, Forall well_formed l /\
  render_all true h site l (RState [fr_vars f] []) = RDone (enc (lit "rest")) (RState [fr_vars f] []) /\
  run (World h site (flat_map flat l)) (Scope 0 [f] []) = Err (TB [] 1 9 XE_EndWithoutBegin) /\ l = C22_items.
Proof.
  exact (ex_intro _ no_host (ex_intro _ (NDir [] [] []) (ex_intro _ C22_items (ex_intro _ C22_base
    (conj (proj1 (all_wf_forall _) (proj1 loop_nothing_refuted))
    (conj (proj1 (proj2 loop_nothing_refuted)) (conj (proj2 (proj2 loop_nothing_refuted)) eq_refl))))))).
Qed.
Print Assumptions C22_empty_loop_refuted.
(** The loop tag itself prints nothing and changes nothing; what follows it, the body, is then
    processed once, outside of any block. *)
Theorem C22_empty_loop_partial : forall n w l f s vs, current w s = Some (LTok (TFun (FFor f)) l) ->
  loop_source (w_input w) f (sc_stack s) vs -> visits f vs [] ->
  exec (S n) w (LTok (TFun (FFor f)) l) s = Ok s.
Proof. exact loop_none. Qed.
Print Assumptions C22_empty_loop_partial.
Example C22_case : let f := ForFn (lit "x") (lit "xs") SrcVar (Some 2%N) None None false in
  visits f [VNull; VNull] [] /\ loop_source (NDir [] [] []) f [Frame (lit "base") [(lit "xs", VArr [VNull; VNull])] []] [VNull; VNull].
Proof.
  split; [exact (select_visits (ForFn (lit "x") (lit "xs") SrcVar (Some 2%N) None None false) [VNull; VNull])|].
  apply (ls_var _ _ _ (lit "xs") [] (VArr [VNull; VNull])); [reflexivity|reflexivity|intros [E|[E|[]]]; discriminate E|constructor| |constructor].
  exists [], (Frame (lit "base") [(lit "xs", VArr [VNull; VNull])] []), []. repeat split; [|constructor].
  exists [], []. split; [reflexivity|intros []].
Qed.

(** ** C23 *)
Theorem C23_branches_refuted : exists h site l f, Forall well_formed l /\
  render_all true h site l (RState [fr_vars f] []) = RDone [] (RState [fr_vars f] []) /\
  run (World h site (flat_map flat l)) (Scope 0 [f] []) = Err (TB [] 1 9 XE_EndWithoutBegin) /\ l = C23_items.
Proof.
  exact (ex_intro _ no_host (ex_intro _ (NDir [] [] []) (ex_intro _ C23_items (ex_intro _ (Frame (lit "base") [] [])
    (conj (proj1 (all_wf_forall _) (proj1 branches_refuted))
    (conj (proj1 (proj2 branches_refuted)) (conj (proj2 (proj2 branches_refuted)) eq_refl))))))).
Qed.
Print Assumptions C23_branches_refuted.
(** When the branch that is not taken contains no blocks. *)
Theorem C23_either_partial : forall h site l c yes le no l' f r secs b o st, Forall well_formed yes -> Forall well_formed no ->
  holds c (map fr_vars (f :: r)) = Ok b -> existsb is_block (if b then no else yes) = false ->
  render_all false h site (if b then yes else no) (RState ([] :: map fr_vars (f :: r)) secs) = RDone o st ->
  let toks := flat (IIfElse l c yes le no l') in
  run (World h site toks) (Scope 0 (f :: r) secs) =
  Ok (Scope (length toks) (Frame (fr_name f) (fr_vars f) (fr_out f ++ o) :: r) (rs_secs st)).
Proof.
  exact (fun h site l c yes le no l' f r secs b o st W1 W2 =>
    branch_choice h site l c yes le no l' f r secs b o st (proj2 (all_wf_forall _) W1) (proj2 (all_wf_forall _) W2)).
Qed.
Print Assumptions C23_either_partial.
Theorem C23_alone_partial : forall h site l c yes l' f r secs b o st, Forall well_formed yes ->
  holds c (map fr_vars (f :: r)) = Ok b ->
  (if b then render_all false h site yes (RState ([] :: map fr_vars (f :: r)) secs) = RDone o st
   else existsb is_block yes = false /\ o = [] /\ rs_secs st = secs) ->
  let toks := flat (IIf l c yes l') in
  run (World h site toks) (Scope 0 (f :: r) secs) =
  Ok (Scope (length toks) (Frame (fr_name f) (fr_vars f) (fr_out f ++ o) :: r) (rs_secs st)).
Proof.
  exact (fun h site l c yes l' f r secs b o st W => branch_alone h site l c yes l' f r secs b o st (proj2 (all_wf_forall _) W)).
Qed.
Print Assumptions C23_alone_partial.
(** The taken branch may contain any blocks. *)
Example C23_case : forall h site, let l := Loc [] 1 1 in
  let f := Frame (lit "base") [] [] in
  let yes := [ISection l (lit "s") true [IIf l (TDefined (lit "q")) [ILeaf (raw (lit "no"))] l; ILeaf (raw (lit "Y"))] true l] in
  holds (TCompare CEq (IInt 1) (IInt 1)) [fr_vars f] = Ok true /\ Forall well_formed yes /\
  render_all false h site yes (RState [[]; fr_vars f] []) = RDone (enc (lit "Y")) (RState [[]; fr_vars f] [(lit "s", enc (lit "Y"))]).
Proof. intros. split; [reflexivity|]. split; [repeat constructor|reflexivity]. Qed.

(** ** C24 *)
Theorem C24_ifle_refuted : exists h site l f x y, operand_of [f] (IInt 1) x /\ operand_of [f] (IInt 1) y /\ compares CLe x y /\
  run (World h site (either l (TCompare CLe (IInt 1) (IInt 1)) (lit "yes") (lit "no"))) (Scope 0 [f] []) =
  Ok (Scope 5 [Frame (fr_name f) (fr_vars f) (enc (lit "no"))] []).
Proof. exact ifle_refuted. Qed.
Print Assumptions C24_ifle_refuted.
Theorem C24_comparisons_partial : forall h site l c a b yes no f r secs x y, c <> CLe ->
  operand_of (f :: r) a x -> operand_of (f :: r) b y ->
  exists t, (compares c x y -> t = yes) /\ (~ compares c x y -> t = no) /\
  run (World h site (either l (TCompare c a b) yes no)) (Scope 0 (f :: r) secs) =
  Ok (Scope 5 (Frame (fr_name f) (fr_vars f) (fr_out f ++ enc t) :: r) secs).
Proof. exact compare_run. Qed.
Print Assumptions C24_comparisons_partial.
(** What [ifle] does: it is [iflt]. *)
Theorem C24_ifle_partial : forall h site l a b yes no f r secs x y,
  operand_of (f :: r) a x -> operand_of (f :: r) b y ->
  exists t, (compares CLt x y -> t = yes) /\ (~ compares CLt x y -> t = no) /\
  run (World h site (either l (TCompare CLe a b) yes no)) (Scope 0 (f :: r) secs) =
  Ok (Scope 5 (Frame (fr_name f) (fr_vars f) (fr_out f ++ enc t) :: r) secs).
Proof. exact ifle_strict. Qed.
Print Assumptions C24_ifle_partial.
(** An operand without a value (undefined, null, a boolean, an array or an object) is an error. *)
Theorem C24_undefined : forall h site l c a b yes no f r secs,
  (forall x, ~ operand_of (f :: r) a x) \/ (forall x, ~ operand_of (f :: r) b x) ->
  exists v, (a = IVar v \/ b = IVar v) /\
  run (World h site (either l (TCompare c a b) yes no)) (Scope 0 (f :: r) secs) = Err (tb l (XE_UndefinedVariable v)).
Proof. exact compare_undefined. Qed.
Print Assumptions C24_undefined.
Example C24_case : let f := Frame (lit "base") [(lit "n", VNum (FFin (-7) (-1)))] [] in
  operand_of [f] (IVar (lit "n")) (OpInt (-3)) /\ operand_of [f] (IInt (-2)) (OpInt (-2)) /\ compares CLt (OpInt (-3)) (OpInt (-2)) /\
  ~ compares CGe (OpInt 1) (OpStr (lit "1")).
Proof.
  split.
  - apply (oo_var_num _ (lit "n") [] (VNum (FFin (-7) (-1))) (FFin (-7) (-1)) (-3)); [intros [E|[]]; discriminate E|constructor| |constructor|exact (truncated_spec (FFin (-7) (-1)))].
    exists [], (Frame (lit "base") [(lit "n", VNum (FFin (-7) (-1)))] []), []. repeat split; [|constructor].
    exists [], []. split; [reflexivity|intros []].
  - split; [constructor|]. split; [reflexivity|intros []].
Qed.

(** ** C25 *)
Theorem C25_ifdefined : forall h site l k p yes no f r secs, ~ In c_dot k -> Forall (fun x => ~ In c_dot x) p ->
  exists t, ((exists v0 v, visible k (f :: r) v0 /\ field v0 p v /\ v <> VNull) -> t = yes) /\
            (~ (exists v0 v, visible k (f :: r) v0 /\ field v0 p v /\ v <> VNull) -> t = no) /\
  run (World h site (either l (TDefined (dotted k p)) yes no)) (Scope 0 (f :: r) secs) =
  Ok (Scope 5 (Frame (fr_name f) (fr_vars f) (fr_out f ++ enc t) :: r) secs).
Proof. exact defined_run. Qed.
Print Assumptions C25_ifdefined.
Example C25_case : forall h site, let l := Loc [] 1 1 in
  let f := Frame (lit "base") [(lit "a", VObj [(lit "b", VBool false); (lit "c", VNull)])] [] in
  let out v := match run (World h site (either l (TDefined (lit v)) (lit "yes") (lit "no"))) (Scope 0 [f] []) with
               | Ok s => map fr_out (sc_stack s) | _ => [] end in
  (out "a", out "a.b", out "a.c", out "a.d", out "z")%string =
  ([enc (lit "yes")], [enc (lit "yes")], [enc (lit "no")], [enc (lit "no")], [enc (lit "no")]).
Proof. intros. now vm_compute. Qed.

(** ** C26 *)
Theorem C26_insert : forall n w l label s f r b, current w s = Some (LTok (TFun (FInsert label)) l) -> sc_stack s = f :: r ->
  first_binding label (sc_secs s) b -> exec (S n) w (LTok (TFun (FInsert label)) l) s =
  Ok (Scope (sc_idx s) (Frame (fr_name f) (fr_vars f) (fr_out f ++ b) :: r) (sc_secs s)).
Proof. exact insert_found. Qed.
Print Assumptions C26_insert.
Theorem C26_missing : forall n w l label s, current w s = Some (LTok (TFun (FInsert label)) l) -> sc_stack s <> [] ->
  ~ In label (map fst (sc_secs s)) -> exec (S n) w (LTok (TFun (FInsert label)) l) s = Err (tb l (XE_UndefinedSection label)).
Proof. exact insert_missing. Qed.
Print Assumptions C26_missing.
(** The section closed first stays the one that is inserted. *)
Theorem C26_first : forall n w t s s' label b, plugins_of plugin_ok (w_toks w) -> current w s = Some t -> sc_stack s <> [] ->
  exec n w t s = Ok s' -> first_binding label (sc_secs s) b -> first_binding label (sc_secs s') b.
Proof. exact first_section. Qed.
Print Assumptions C26_first.
(** Closing a section records the bytes of its body. *)
Theorem C26_recorded : forall n w label l s x f r c, current w s = Some (LTok (TFun (FEnd label true)) l) ->
  sc_stack s = x :: f :: r -> pushed_by (OSection label c) x -> ~ In label (map fst (sc_secs s)) ->
  exists s', exec (S n) w (LTok (TFun (FEnd label true)) l) s = Ok s' /\ first_binding label (sc_secs s') (fr_out x).
Proof. exact section_recorded. Qed.
Print Assumptions C26_recorded.
Example C26_case : forall h site, let l := Loc [] 1 1 in
  let sec t := ISection l (lit "s") true [ILeaf (raw (lit t))] true l in
  run (World h site (flat_map flat [sec "1"; sec "2"; ILeaf (LTok (TFun (FInsert (lit "s"))) l)]%string)) (Scope 0 [Frame (lit "base") [] []] []) =
  Ok (Scope 7 [Frame (lit "base") [] (enc (lit "121"))] [(lit "s", enc (lit "1")); (lit "s", enc (lit "2"))]).
Proof. intros. now vm_compute. Qed.

(** ** C27 *)
Theorem C27_open_blocks_refuted : exists pr e src toks o,
  ev_root e = Some C27_root /\ process_html pr e src toks = Ok o /\ po_contents o = Some (enc (lit "after")).
Proof. exact unclosed_root. Qed.
Print Assumptions C27_open_blocks_refuted.
(** Pages and markdown templates. *)
Theorem C27_pages_partial : forall pr e src p, plugins_of plugin_ok (page_tokens e p) -> ev_root e <> None -> leaves_open pr e p ->
  render_page pr e src p = Err (TB src 0 0 XE_StackError).
Proof. exact open_page. Qed.
Print Assumptions C27_pages_partial.
(** Markdown bodies. *)
Theorem C27_markdown_partial : forall pr src m b s, plugins_of plugin_ok (md_tokens m) -> pr_base pr = Some b -> ~ In c_colon (fr_name b) ->
  phase pr (md_tokens m) [b] [] = Ok s -> length (sc_stack s) > 1 ->
  preprocess_markdown pr src m = Err (TB src 0 0 XE_StackError).
Proof. exact open_markdown. Qed.
Print Assumptions C27_markdown_partial.
(** A page with a block that has no [end]. *)
Theorem C27_no_end_partial : forall pr e src i b root a o lo body oa st vs ob st', Forall well_formed a -> Forall well_formed body ->
  pr_input pr = Some i -> pr_base pr = Some b -> fr_name b = lit "base" -> ev_root e = Some root ->
  let toks := flat_map flat a ++ LTok (TFun (opener_fn o)) lo :: flat_map flat body in
  plugins_of plugin_ok toks ->
  render_all false (pr_host pr) i a (RState [fr_vars b] []) = RDone oa st ->
  enters (pr_host pr) i o (rs_scopes st) vs ->
  render_all false (pr_host pr) i body (RState (vs :: rs_scopes st) (rs_secs st)) = RDone ob st' ->
  process_html pr e src toks =
  Err (match o with OSection _ _ => TB src 0 0 XE_StackError | _ => tb lo XE_UnexpectedEndOfFile end).
Proof.
  exact (fun pr e src i b root a o lo body oa st vs ob st' W1 W2 =>
    unclosed_page pr e src i b root a o lo body oa st vs ob st' (proj2 (all_wf_forall _) W1) (proj2 (all_wf_forall _) W2)).
Qed.
Print Assumptions C27_no_end_partial.
Example C27_case : forall h, let b := Frame (lit "base") [] [] in
  leaves_open (Processor h (Some (NDir [] [] [])) (Some b) false) (Env [] (Some []) None)
    (PageHtml [LTok (TFun (FBegin (lit "s") true)) (Loc [] 1 1)]).
Proof.
  intros. exists b, b. eexists. split; [reflexivity|]. split; [intros H; repeat (destruct H as [H|H]; [discriminate H|]); exact H|].
  split; [reflexivity|]. split; [vm_compute; reflexivity|]. cbn. auto.
Qed.

(** ** C28 *)
Theorem C28_end : forall n w label custom l s x f r o, current w s = Some (LTok (TFun (FEnd label custom)) l) ->
  sc_stack s = x :: f :: r -> pushed_by o x -> (custom = false -> ~ In c_colon label) ->
  (closes label custom o -> exec (S n) w (LTok (TFun (FEnd label custom)) l) s =
     Ok (Scope (sc_idx s) (Frame (fr_name f) (fr_vars f) (fr_out f ++ fr_out x) :: r)
          (sc_secs s ++ if custom then [(label, fr_out x)] else []))) /\
  (~ closes label custom o -> exec (S n) w (LTok (TFun (FEnd label custom)) l) s = Err (tb l XE_EndWithoutBegin)).
Proof. exact end_exec. Qed.
Print Assumptions C28_end.
Theorem C28_end_outside : forall n w label custom l s f r, current w s = Some (LTok (TFun (FEnd label custom)) l) ->
  sc_stack s = f :: r -> ~ In c_colon (fr_name f) ->
  exec (S n) w (LTok (TFun (FEnd label custom)) l) s = Err (tb l XE_EndWithoutBegin).
Proof. exact end_base. Qed.
Print Assumptions C28_end_outside.
Theorem C28_else : forall n w l s x r o, current w s = Some (LTok (TFun FElse) l) ->
  sc_stack s = x :: r -> pushed_by o x ->
  (is_test o -> exec (S n) w (LTok (TFun FElse) l) s = Ok s) /\
  (~ is_test o -> exec (S n) w (LTok (TFun FElse) l) s = Err (tb l XE_ElseWithoutIf)).
Proof. exact else_exec. Qed.
Print Assumptions C28_else.
(** In a template: an [end] or [else] that does not match the block it is in. *)
Theorem C28_wrong_end : forall h site a o lo b label custom le rest f r secs oa st vs ob st', Forall well_formed a -> Forall well_formed b ->
  render_all false h site a (RState (map fr_vars (f :: r)) secs) = RDone oa st ->
  enters h site o (rs_scopes st) vs ->
  render_all false h site b (RState (vs :: rs_scopes st) (rs_secs st)) = RDone ob st' ->
  (custom = false -> ~ In c_colon label) -> ~ closes label custom o ->
  run (World h site (flat_map flat a ++ LTok (TFun (opener_fn o)) lo :: flat_map flat b ++ LTok (TFun (FEnd label custom)) le :: rest))
    (Scope 0 (f :: r) secs) = Err (tb le XE_EndWithoutBegin).
Proof.
  exact (fun h site a o lo b label custom le rest f r secs oa st vs ob st' W1 W2 =>
    end_mismatch h site a o lo b label custom le rest f r secs oa st vs ob st' (proj2 (all_wf_forall _) W1) (proj2 (all_wf_forall _) W2)).
Qed.
Print Assumptions C28_wrong_end.
Theorem C28_wrong_else : forall h site a o lo b le rest f r secs oa st vs ob st', Forall well_formed a -> Forall well_formed b ->
  render_all false h site a (RState (map fr_vars (f :: r)) secs) = RDone oa st ->
  enters h site o (rs_scopes st) vs ->
  render_all false h site b (RState (vs :: rs_scopes st) (rs_secs st)) = RDone ob st' ->
  ~ is_test o ->
  run (World h site (flat_map flat a ++ LTok (TFun (opener_fn o)) lo :: flat_map flat b ++ LTok (TFun FElse) le :: rest))
    (Scope 0 (f :: r) secs) = Err (tb le XE_ElseWithoutIf).
Proof.
  exact (fun h site a o lo b le rest f r secs oa st vs ob st' W1 W2 =>
    else_mismatch h site a o lo b le rest f r secs oa st vs ob st' (proj2 (all_wf_forall _) W1) (proj2 (all_wf_forall _) W2)).
Qed.
Print Assumptions C28_wrong_else.
Example C28_case : closes (lit "iflt") false (OTest (TCompare CLt (IInt 1) (IInt 2))) /\
  ~ closes (lit "if") false (OTest (TCompare CLt (IInt 1) (IInt 2))) /\ ~ closes (lit "s") true (OSection (lit "t") true) /\
  forall h site sc, enters h site (OTest (TCompare CLt (IInt 1) (IInt 2))) sc [].
Proof. repeat split; try discriminate. intros [c E]. discriminate E. Qed.

(** ** C29 *)
Theorem C29_ellipsis_refuted : exists n s, reads n s s [] /\ excerpt n s = s ++ lit "...".
Proof. exact excerpt_refuted. Qed.
Print Assumptions C29_ellipsis_refuted.
Theorem C29_excerpt_partial : forall k w l h p n s f r v0 x, ~ In c_dot h -> Forall (fun q => ~ In c_dot q) p ->
  current w s = Some (LTok (TFun (FExcerpt (dotted h p) n)) l) -> sc_stack s = f :: r ->
  visible h (f :: r) v0 -> field v0 p (VStr x) ->
  exists c rest dots, reads n x c rest /\ (dots = [] \/ dots = lit "...") /\ (rest <> [] -> dots = lit "...") /\
    (ascii x -> rest = [] -> dots = []) /\
    exec (S k) w (LTok (TFun (FExcerpt (dotted h p) n)) l) s =
    Ok (Scope (sc_idx s) (Frame (fr_name f) (fr_vars f) (fr_out f ++ enc (untag false c ++ dots)) :: r) (sc_secs s)).
Proof. exact excerpt_exec. Qed.
Print Assumptions C29_excerpt_partial.
Theorem C29_determined : forall n s c rest c' rest', reads n s c rest -> reads n s c' rest' -> c = c'.
Proof. exact reads_unique. Qed.
Print Assumptions C29_determined.
Example C29_case : excerpt 4 (lit "a<b>cd</b>ef") = lit "acde..." /\ excerpt 9 (lit "a<b>cd</b>ef") = lit "acdef".
Proof. now vm_compute. Qed.

(** ** C30 *)
Theorem C30_timetoread : forall k w l h p s f r v0 x ws, ~ In c_dot h -> Forall (fun q => ~ In c_dot q) p ->
  current w s = Some (LTok (TFun (FTime (dotted h p))) l) -> sc_stack s = f :: r ->
  visible h (f :: r) v0 -> field v0 p (VStr x) -> words x ws ->
  exists t, decimal (N.max 1 (N.of_nat (length ws) / 200)) t /\
    exec (S k) w (LTok (TFun (FTime (dotted h p))) l) s =
    Ok (Scope (sc_idx s) (Frame (fr_name f) (fr_vars f) (fr_out f ++ enc t) :: r) (sc_secs s)).
Proof. exact time_exec. Qed.
Print Assumptions C30_timetoread.
Theorem C30_words : forall t, exists ws, words t ws.
Proof. exact words_exist. Qed.
Print Assumptions C30_words.
Example C30_case : words (lit " one two") [lit "one"; lit "two"] /\ minutes (concat (repeat (lit "w ") 601)) = 3%N /\ minutes [] = 1%N.
Proof.
  split; [|now vm_compute].
  apply (wo_word (lit " ") (lit "one") (lit " two")); [now repeat constructor|discriminate|now repeat constructor|right; now eexists _, _|].
  apply (wo_word (lit " ") (lit "two") []); [now repeat constructor|discriminate|now repeat constructor|now left|].
  apply wo_none. constructor.
Qed.

(** ** C31 *)
Theorem C31_total : forall w b secs, plugins_of plugin_ok (w_toks w) -> plugins_of plugin_total (w_toks w) ->
  loops_ready (w_input w) (w_toks w) -> ~ In c_colon (fr_name b) ->
  match run w (Scope 0 [b] secs) with Ok s => sc_idx s = length (w_toks w) | Err e => blamed (w_toks w) e | _ => False end.
Proof. exact run_total. Qed.
Print Assumptions C31_total.
Theorem C31_ready : forall site toks, rendered site -> loops_ready site toks.
Proof. exact rendered_ready. Qed.
Print Assumptions C31_ready.
Theorem C31_pages : forall pr i b e src p, pr_input pr = Some i -> pr_base pr = Some b -> ~ In c_colon (fr_name b) ->
  plugins_of plugin_ok (page_tokens e p) -> plugins_of plugin_ok (root_tokens e) ->
  plugins_of plugin_total (page_tokens e p) -> plugins_of plugin_total (root_tokens e) -> rendered i -> page_ready p ->
  match render_page pr e src p with Panic _ | OutOfFuel => False | _ => True end.
Proof. exact page_total. Qed.
Print Assumptions C31_pages.
(** Blocks that are not properly nested. *)
Example C31_case : forall h, let l := Loc [] 1 1 in
  run (World h (NDir [] [] []) [LTok (TFun (FIf CEq (IInt 1) (IInt 1))) l; LTok (TFun (FBegin (lit "s") true)) l;
       LTok (TFun (FEnd (lit "ifeq") false)) l]) (Scope 0 [Frame (lit "base") [] []] []) = Err (TB [] 1 1 XE_EndWithoutBegin).
Proof. intros. now vm_compute. Qed.

(** ** C32 *)
Theorem C32_utf8 : forall w s s', scalar_host (w_host w) -> scalar_site (w_input w) -> Forall scalar_token (w_toks w) ->
  scalar_scope s -> run w s = Ok s' -> scalar_scope s'.
Proof. exact (fun w s s' H1 H2 H3 => run_scalar w H1 H2 H3 s s'). Qed.
Print Assumptions C32_utf8.
Theorem C32_pages : forall pr i b e src p o out, pr_input pr = Some i -> pr_base pr = Some b -> scalar_host (pr_host pr) -> scalar_site i ->
  scalar_frame b -> Forall scalar_token (page_tokens e p) -> Forall scalar_token (root_tokens e) ->
  match p with PageHtml _ => True | PageMd _ m => scalar_markdown m end ->
  render_page pr e src p = Ok o -> po_contents o = Some out -> utf8 out.
Proof. exact (fun pr i b e src p o out H1 H2 H3 H4 H5 => page_utf8 pr i b H1 H2 H3 H4 H5 e src p o out). Qed.
Print Assumptions C32_pages.
(** The check after preprocessing a markdown body succeeds. *)
Theorem C32_markdown : forall pr i b src m s f r, pr_input pr = Some i -> pr_base pr = Some b -> scalar_host (pr_host pr) -> scalar_site i ->
  scalar_frame b -> Forall scalar_token (md_tokens m) -> phase pr (md_tokens m) [b] [] = Ok s ->
  sc_stack s = f :: r -> fr_name f = lit "base" ->
  exists t, utf8_text (fr_out f) t /\
    preprocess_markdown pr src m = Ok (Markdown (md_front m) (md_tokens m) (md_string m) (Some (h_md (pr_host pr) t))).
Proof. exact (fun pr i b src m s f r H1 H2 H3 H4 H5 => body_utf8 pr i b H1 H2 H3 H4 H5 src m s f r). Qed.
Print Assumptions C32_markdown.
(** What Rust's [str::as_bytes] and [str::from_utf8] are taken to be, against the table of RFC 3629. *)
Theorem C32_decoding : forall b t, from_utf8 b = Some t <-> utf8_text b t.
Proof. exact decoding. Qed.
Print Assumptions C32_decoding.
Theorem C32_encoding : forall t, scalars t -> utf8_text (enc t) t.
Proof. exact encoding. Qed.
Print Assumptions C32_encoding.
(** An excerpt never cuts a character in two. *)
Example C32_case : forall site, let v := VStr [233; 8364; 128512]%N in
  scalar_value v /\ option_map from_utf8 (match run (World no_host site [LTok (TFun (FExcerpt (lit "v") 3)) (Loc [] 1 1)])
    (Scope 0 [Frame (lit "base") [(lit "v", v)] []] []) with Ok s => option_map fr_out (hd_error (sc_stack s)) | _ => None end)
  = Some (Some ([233; 8364]%N ++ lit "...")).
Proof. intros. split; [constructor; repeat apply Forall_cons; try apply Forall_nil; lia|now vm_compute]. Qed.

(** ** C33 *)
Theorem C33_located : forall w b secs e, plugins_of plugin_ok (w_toks w) -> ~ In c_colon (fr_name b) ->
  run w (Scope 0 [b] secs) = Err e -> blamed (w_toks w) e.
Proof. exact run_blames. Qed.
Print Assumptions C33_located.
Theorem C33_pages : forall pr i b e src p x, pr_input pr = Some i -> pr_base pr = Some b -> ~ In c_colon (fr_name b) ->
  plugins_of plugin_ok (page_tokens e p) -> plugins_of plugin_ok (root_tokens e) ->
  render_page pr e src p = Err x ->
  blamed (page_tokens e p) x \/ blamed (root_tokens e) x \/ exists k, page_error e p k /\ x = TB src 0 0 k.
Proof. exact page_blames. Qed.
Print Assumptions C33_pages.
Example C33_case : forall h, run (World h (NDir [] [] []) [LTok (TRaw (lit "a")) (Loc [] 1 1); LTok (TVar (lit "v")) (Loc [lit "p"] 3 4)])
  (Scope 0 [Frame (lit "base") [] []] []) = Err (TB [lit "p"] 3 4 (XE_UndefinedVariable (lit "v"))).
Proof. intros. now vm_compute. Qed.
