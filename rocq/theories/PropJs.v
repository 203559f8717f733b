(** PropJs.v -- properties C56, C57, C59 and C65: JavaScript plugins. *)

From Coq Require Import String List NArith ZArith Bool Lia Permutation Sorted.
From Verif Require Import Text Utf8 Json Base Syntax Parse Tree Interp Js SpecScope SpecRender SpecChars SpecJs.
From Verif Require Import JsFacts.
Import ListNotations.

(** ** C56 *)
(** Duplicate keys, a member called [__proto__] and the order of members can be lost. *)
Theorem C56_duplicate_refuted : exists v v', ~ keyed v /\ js_to_json (json_to_js v) = Ok (Some v') /\ v' <> v.
Proof.
  exists (VObj [(lit "a", VNull); (lit "a", VBool true)]), (VObj [(lit "a", VBool true)]). split; [|split; [vm_compute; reflexivity|discriminate]].
  intros K. inversion K as [| | | | |? ND ? ?]; subst. cbn in ND. apply NoDup_cons_iff in ND. apply (proj1 ND). now left.
Qed.
Print Assumptions C56_duplicate_refuted.
Theorem C56_proto_refuted : forall v, js_to_json (json_to_js (VObj [(lit "a", VNull); (lit "__proto__", v)])) = Ok (Some (VObj [(lit "a", VNull)])).
Proof. reflexivity. Qed.
Print Assumptions C56_proto_refuted.
Theorem C56_order_refuted : exists v v', keyed v /\ js_to_json (json_to_js v) = Ok (Some v') /\ v' <> v.
Proof.
  exists (VObj [(lit "b", VNull); (lit "7", VBool true)]), (VObj [(lit "7", VBool true); (lit "b", VNull)]). split; [|split; [vm_compute; reflexivity|discriminate]].
  constructor; cbn; [|intros [H|[H|[]]]; discriminate|repeat constructor]. constructor; [intros [H|[]]; discriminate|repeat constructor; intros []].
Qed.
Print Assumptions C56_order_refuted.
(** Missing: objects with a key twice or with [__proto__], and members in another order than JavaScript's. *)
Theorem C56_same_partial : forall v, keyed v -> in_order v -> js_to_json (json_to_js v) = Ok (Some v).
Proof. exact round_trip. Qed.
Print Assumptions C56_same_partial.
(** Missing: objects with a key twice or with [__proto__]; only the order of members changes otherwise. *)
Theorem C56_members_partial : forall v, keyed v -> exists v', js_to_json (json_to_js v) = Ok (Some v') /\ same_members v v'.
Proof. exact round_trip_members. Qed.
Print Assumptions C56_members_partial.
(** Exactly what a value becomes in JavaScript, and what a JavaScript value is read as. *)
Theorem C56_exact_partial : forall v j, json_to_js v = j <-> becomes v j.
Proof. exact becomes_only. Qed.
Print Assumptions C56_exact_partial.
Theorem C56_back_partial : forall j y, js_to_json j = Ok (Some y) <-> read_as j y.
Proof. exact read_back. Qed.
Print Assumptions C56_back_partial.
Example C56_becomes : exists j, becomes (VObj [(lit "b", VNull); (lit "7", VBool true); (lit "__proto__", VNull); (lit "b", VStr (lit "x")); (lit "4", VNull)]) j /\
  read_as j (VObj [(lit "4", VNull); (lit "7", VBool true); (lit "b", VStr (lit "x"))]).
Proof. eexists. split; [now apply becomes_only|now apply read_back]. Qed.
(** Every value comes back as a value. *)
Theorem C56_total : forall v, exists v', js_to_json (json_to_js v) = Ok (Some v').
Proof. exact comes_back. Qed.
Print Assumptions C56_total.
Example C56_case : keyed (VObj [(lit "0", VArr [VNull]); (lit "12", VStr (lit "x")); (lit "a", VObj []); (lit "01", VBool true)]) /\
  in_order (VObj [(lit "0", VArr [VNull]); (lit "12", VStr (lit "x")); (lit "a", VObj []); (lit "01", VBool true)]).
Proof.
  split.
  - constructor; cbn; [|intros H; repeat destruct H as [H|H]; try discriminate; contradiction|repeat constructor; intros []].
    repeat constructor; cbn; intros H; repeat destruct H as [H|H]; try discriminate; contradiction.
  - constructor.
    + exists [lit "0"; lit "12"], [0; 12]%N, [lit "a"; lit "01"]. split; [vm_compute; reflexivity|]. split; [|split; [repeat constructor|]].
      { constructor; [|constructor; [|constructor]]; (split; [reflexivity|split; [|intros r E; try discriminate; now injection E]]).
        - now apply (nu_one 0).
        - apply (nu_more (lit "1") 1 2); [now apply (nu_one 1)|reflexivity]. }
      intros k n IN I. apply array_index_spec in I. destruct IN as [<-|[<-|[]]]; vm_compute in I; discriminate.
    + repeat constructor; exists [], [], []; cbn; repeat split; try constructor; intros k n [].
Qed.

(** ** C57 *)
(** No JavaScript function works in a conditional, whatever it does and whether the condition holds or not;
    outside, the same function prints what it returns. *)
Theorem C57_js_refuted : forall name code r p, pp_parse (js_plugin_parser name code) r = inr p ->
  forall h site l c lp rest f fs secs b, holds c (map fr_vars (f :: fs)) = Ok b ->
  run (World h site (LTok (TFun (test_fn c)) l :: LTok (TFun (FPlugin p)) lp :: rest)) (Scope 0 (f :: fs) secs) = Panic Pn_js_name.
Proof. intros name code r p E. injection E as <-. intros. apply nameless_panics with b; [reflexivity|assumption]. Qed.
Print Assumptions C57_js_refuted.
Example C57_outside : exists p, pp_parse (js_plugin_parser (lit "f") (fun _ => JsReturn (Some (lit "hi")))) (RawFn (lit "f") [] []) = inr p /\
  forall h site lp f fs secs, run (World h site [LTok (TFun (FPlugin p)) lp]) (Scope 0 (f :: fs) secs) =
    Ok (Scope 1 (Frame (fr_name f) (fr_vars f) (fr_out f ++ enc (lit "hi")) :: fs) secs).
Proof. eexists. split; [reflexivity|]. intros h site lp [n v o] fs secs. vm_compute. reflexivity. Qed.
(** Missing: functions without a name, which are those written in JavaScript. *)
Theorem C57_inside_partial : forall h site l c p beh lp l' f r secs o new, behaves p beh -> holds c (map fr_vars (f :: r)) = Ok true ->
  beh lp (map fr_vars (f :: r)) secs = Ok (o, new) -> beh lp ([] :: map fr_vars (f :: r)) secs = Ok (o, new) ->
  run (World h site [LTok (TFun (FPlugin p)) lp]) (Scope 0 (f :: r) secs) =
    Ok (Scope 1 (Frame (fr_name f) (fr_vars f ++ new) (fr_out f ++ o) :: r) secs) /\
  run (World h site [LTok (TFun (test_fn c)) l; LTok (TFun (FPlugin p)) lp; LTok (TFun (FEnd (test_name c) false)) l']) (Scope 0 (f :: r) secs) =
    Ok (Scope 3 (Frame (fr_name f) (fr_vars f) (fr_out f ++ o) :: r) secs).
Proof. exact named_inside. Qed.
Print Assumptions C57_inside_partial.
Theorem C57_fails_partial : forall h site l c p beh lp l' f r secs e, behaves p beh -> holds c (map fr_vars (f :: r)) = Ok true ->
  beh lp (map fr_vars (f :: r)) secs = Err e -> beh lp ([] :: map fr_vars (f :: r)) secs = Err e ->
  run (World h site [LTok (TFun (FPlugin p)) lp]) (Scope 0 (f :: r) secs) = Err (tb lp e) /\
  run (World h site [LTok (TFun (test_fn c)) l; LTok (TFun (FPlugin p)) lp; LTok (TFun (FEnd (test_name c) false)) l']) (Scope 0 (f :: r) secs) = Err (tb lp e).
Proof. exact named_fails. Qed.
Print Assumptions C57_fails_partial.
Theorem C57_skipped_partial : forall h site l c p beh lp l' f r secs, behaves p beh -> holds c (map fr_vars (f :: r)) = Ok false ->
  run (World h site [LTok (TFun (test_fn c)) l; LTok (TFun (FPlugin p)) lp; LTok (TFun (FEnd (test_name c) false)) l']) (Scope 0 (f :: r) secs) =
    Ok (Scope 3 (f :: r) secs).
Proof. exact named_skipped. Qed.
Print Assumptions C57_skipped_partial.
(** Whether functions have names, and which, makes no difference in templates without conditionals.
    Missing: templates with conditionals. *)
Theorem C57_names_partial : forall n h site toks, Forall (fun t => ~ conditional t) toks ->
  forall s, run (World h site (map (call_all n) toks)) s = run (World h site toks) s.
Proof. intros n h site toks NC s. exact (run_called n h site toks NC s). Qed.
Print Assumptions C57_names_partial.
(** In any template, giving names to the functions changes nothing but the panic for want of one. *)
Theorem C57_only_names : forall n h site toks, n <> lit "else" /\ n <> lit "end" ->
  plugins_of (fun p => pf_name p <> Some (lit "else") /\ pf_name p <> Some (lit "end")) toks ->
  forall s, run (World h site toks) s = Panic Pn_js_name \/ run (World h site (map (call_all (Some n)) toks)) s = run (World h site toks) s.
Proof. exact run_named. Qed.
Print Assumptions C57_only_names.
(** What a JavaScript function prints and binds is determined by the variables, the same wherever its
    tag stands and whatever was printed before. *)
Theorem C57_acts : forall name code r p, pp_parse (js_plugin_parser name code) r = inr p ->
  exists beh, acts p beh /\ forall l l' sc secs secs', beh l sc secs = beh l' sc secs'.
Proof. intros name code r p E. injection E as <-. exists (js_beh code (rf_pos r)). split; [apply js_acts|reflexivity]. Qed.
Print Assumptions C57_acts.
(** A JavaScript function only adds variables and output, and reports errors at its own tag. *)
Theorem C57_grows : forall name code r p, pp_parse (js_plugin_parser name code) r = inr p -> plugin_ok p.
Proof. intros name code r p E. injection E as <-. exact (js_plugin_ok None code (rf_pos r)). Qed.
Print Assumptions C57_grows.
Example C57_case : behaves greet (fun _ _ _ => Ok (enc (lit "hello"), [])) /\ (exists c, holds c (map fr_vars [new_frame []]) = Ok true) /\
  Forall (fun t => ~ conditional t) [LTok (TFun (FPlugin greet)) (Loc [lit "a.html"] 1 1)].
Proof.
  split; [|split].
  - split; [exists (lit "greet"); split; [reflexivity|split; discriminate]|]. intros l [i st secs] [n v o] r ST. cbn [sc_stack] in ST. subst st. cbn -[enc lit]. now rewrite app_nil_r.
  - exists (TCompare CEq (IStr (lit "x")) (IStr (lit "x"))). vm_compute. reflexivity.
  - constructor; [intros []|constructor].
Qed.
(** A function without a name before a conditional runs as with one, and one in it panics. *)
Example C57_before_case : exists p, pp_parse (js_plugin_parser (lit "f") (fun _ => JsReturn (Some (lit "hi")))) (RawFn (lit "f") [] []) = inr p /\
  let c := TCompare CEq (IInt 1) (IInt 1) in
  let l := Loc [lit "a.html"] 1 1 in
  let call := LTok (TFun (FPlugin p)) l in
  forall h site, run (World h site [call; LTok (TFun (test_fn c)) l; LTok (TFun (FEnd (test_name c) false)) l]) (Scope 0 [new_frame []] []) <> Panic Pn_js_name /\
    run (World h site [LTok (TFun (test_fn c)) l; call; LTok (TFun (FEnd (test_name c) false)) l]) (Scope 0 [new_frame []] []) = Panic Pn_js_name.
Proof. eexists. split; [reflexivity|]. intros c l call h site. split; [vm_compute; discriminate|vm_compute; reflexivity]. Qed.

(** ** C59 *)
(** A name that the current block has already set keeps its first value, and a dotted name can never be read. *)
Theorem C59_again_refuted : exists s v1 v2 k, v1 <> v2 /\ js_run (JsSet (lit "x") v1 (JsSet (lit "x") v2 (JsGet (lit "x") k))) s = js_run (k v1) (Scope 0 [Frame [] [(lit "x", VStr (lit "1")); (lit "x", VStr (lit "2"))] []] []) /\
  k v1 <> k v2.
Proof.
  exists (Scope 0 [new_frame []] []), (JsStr (lit "1")), (JsStr (lit "2")), (fun v => JsReturn (match v with JsStr t => Some t | _ => None end)). split; [discriminate|]. split; [vm_compute; reflexivity|vm_compute; discriminate].
Qed.
Print Assumptions C59_again_refuted.
Theorem C59_dotted_refuted : forall k, js_run (JsSet (lit "a.b") (JsStr (lit "1")) (JsGet (lit "a.b") k)) (Scope 0 [new_frame []] []) =
  js_run (k JsUndef) (Scope 0 [Frame [] [(lit "a.b", VStr (lit "1"))] []] []).
Proof. intros k. reflexivity. Qed.
Print Assumptions C59_dotted_refuted.
(** An undefined element inside an array or object stops the program. *)
Theorem C59_nested_refuted : forall n p s, js_run (JsSet n (JsArr [JsUndef]) p) s = Panic Pn_plugin.
Proof. reflexivity. Qed.
Print Assumptions C59_nested_refuted.
(** Missing: names already set in the same block, names with dots, and values with something undefined inside. *)
Theorem C59_set_partial : forall n j y s f r k, read_as j y -> ~ In c_dot n -> sc_stack s = f :: r -> ~ In n (map fst (fr_vars f)) ->
  visible n (add_var n y f :: r) y /\ exists j', becomes y j' /\
  js_run (JsSet n j (JsGet n k)) s = js_run (k j') (set_stack (add_var n y f :: r) s).
Proof. exact set_then_get. Qed.
Print Assumptions C59_set_partial.
(** Setting a variable to [undefined] changes nothing. *)
Theorem C59_undefined_partial : forall n j p s, j = JsUndef \/ j = JsOther -> js_run (JsSet n j p) s = js_run p s.
Proof. exact set_undefined. Qed.
Print Assumptions C59_undefined_partial.
(** A name that was never set reads as [undefined]. *)
Theorem C59_unset_partial : forall n s k, ~ In c_dot n -> Forall (fun f => ~ In n (map fst (fr_vars f))) (sc_stack s) ->
  js_run (JsGet n k) s = js_run (k JsUndef) s.
Proof. exact get_unset. Qed.
Print Assumptions C59_unset_partial.
Example C59_unset_case : js_run (JsGet (lit "x") (fun v => JsReturn (match v with JsUndef => Some (lit "none") | _ => None end))) (Scope 0 [Frame [] [(lit "y", VNull)] []] []) =
  Ok (Scope 0 [Frame [] [(lit "y", VNull)] []] [], Some (lit "none")).
Proof. rewrite C59_unset_partial; [reflexivity|vm_compute; intuition discriminate|repeat constructor; vm_compute; intuition discriminate]. Qed.
Example C59_case : exists k, js_run (JsSet (lit "x") (json_to_js (VStr (lit "new"))) (JsGet (lit "x") k)) (Scope 0 [new_frame []; Frame [] [(lit "x", VStr (lit "old"))] []] []) =
  Ok (Scope 0 [Frame [] [(lit "x", VStr (lit "new"))] []; Frame [] [(lit "x", VStr (lit "old"))] []] [], Some (lit "new")).
Proof. exists (fun v => JsReturn (match v with JsStr t => Some t | _ => None end)). vm_compute. reflexivity. Qed.

(** ** C65 *)
Theorem C65_call : forall name code r p js l s f fs s' t, pp_parse (js_plugin_parser name code) r = inr p ->
  sc_stack s = f :: fs -> Forall2 (given (f :: fs)) (rf_pos r) js -> js_run (code js) s = Ok (s', t) ->
  exists vs, pf_exec p l s = Ok (Scope (sc_idx s) (Frame (fr_name f) (fr_vars f ++ vs) (fr_out f ++ match t with Some t => enc t | None => [] end) :: fs) (sc_secs s)) /\
    s' = Scope (sc_idx s) (Frame (fr_name f) (fr_vars f ++ vs) (fr_out f) :: fs) (sc_secs s).
Proof. intros name code r p js l s f fs s' t E ST. injection E as <-. rewrite <- ST. intros F R. exact (js_call code (rf_pos r) js l s f fs s' t F ST R). Qed.
Print Assumptions C65_call.
Theorem C65_fault : forall name code r p args js a e rest l s, pp_parse (js_plugin_parser name code) r = inr p ->
  rf_pos r = args ++ a :: rest -> Forall2 (given (sc_stack s)) args js -> faulty (sc_stack s) a e -> pf_exec p l s = Err (tb l e).
Proof. intros name code r p args js a e rest l s E P F Y. injection E as <-. cbn [pf_exec]. rewrite P. exact (js_call_fault code args js a e rest l s F Y). Qed.
Print Assumptions C65_fault.
(** There is no third case. *)
Theorem C65_cases : forall st args, (exists js, Forall2 (given st) args js) \/
  (exists args1 js1 a args2 e, args = args1 ++ a :: args2 /\ Forall2 (given st) args1 js1 /\ faulty st a e).
Proof. exact js_args_cases. Qed.
Print Assumptions C65_cases.
Example C65_case : exists p, pp_parse (js_plugin_parser (lit "add") (fun js => match js with [JsNum (FFin a 0); JsStr t; JsObj [(_, JsNull)]] => JsReturn (Some (show_Z a ++ t)) | _ => JsReturn None end))
    (RawFn (lit "add") [AInt 12; AStr (lit "px"); AVar (lit "x.y")] [(lit "ignored", AInt 1)]) = inr p /\
  pf_exec p (Loc [lit "a.html"] 1 1) (Scope 0 [Frame [] [(lit "x", VObj [(lit "y", VObj [(lit "z", VNull)])])] []] []) =
    Ok (Scope 0 [Frame [] [(lit "x", VObj [(lit "y", VObj [(lit "z", VNull)])])] (enc (lit "12px"))] []) /\
  pf_exec p (Loc [lit "a.html"] 1 1) (Scope 0 [Frame [] [] []] []) = Err (tb (Loc [lit "a.html"] 1 1) (XE_UndefinedVariable (lit "x.y"))).
Proof. eexists. split; [reflexivity|]. split; vm_compute; reflexivity. Qed.
