(** PropScope.v -- properties C14 to C19: variables and scopes. *)

From Coq Require Import String List NArith ZArith Bool.
From Verif Require Import Text Utf8 Json Base Syntax Parse Tree Interp Build SpecScope SpecPage InterpFacts ScopeFacts.
Import ListNotations.

(** ** C14 *)
Theorem C14_lookup : forall h p st v, ~ In c_dot h -> Forall (fun k => ~ In c_dot k) p ->
  (get_variable (dotted h p) st = Some v <-> exists v0, visible h st v0 /\ field v0 p v).
Proof. exact get_variable_iff. Qed.
Print Assumptions C14_lookup.
Theorem C14_undefined : forall h p st, ~ In c_dot h -> Forall (fun k => ~ In c_dot k) p ->
  (get_variable (dotted h p) st = None <-> Forall (fun f => ~ In h (map fst (fr_vars f))) st).
Proof. exact get_variable_none. Qed.
Print Assumptions C14_undefined.
Theorem C14_every_name : forall t, exists h p, t = dotted h p /\ ~ In c_dot h /\ Forall (fun k => ~ In c_dot k) p.
Proof. exact name_parts. Qed.
Print Assumptions C14_every_name.
Example C14_case :
  let inner := Frame (lit "for:x") [(lit "x", VObj [(lit "l", VArr [VNull; VStr (lit "yes")])])] [] in
  let outer := Frame (lit "base") [(lit "x", VObj [(lit "only", VStr (lit "outer"))])] [] in
  get_variable (lit "x.l.01") [inner; outer] = Some (VStr (lit "yes")) /\
  get_variable (lit "x.only") [inner; outer] = Some VNull /\
  get_variable (lit "y") [inner; outer] = None.
Proof. now vm_compute. Qed.
Example C14_spec_case : field (VObj [(lit "l", VArr [VNull; VStr (lit "yes")])]) [lit "l"; lit "01"] (VStr (lit "yes")).
Proof. apply get_value_iff. reflexivity. Qed.

(** ** C15 *)
Theorem C15_prints : forall n w s l h p f r v0 x, ~ In c_dot h -> Forall (fun k => ~ In c_dot k) p ->
  sc_stack s = f :: r -> visible h (f :: r) v0 -> field v0 p (VStr x) ->
  exec (S n) w (LTok (TVar (dotted h p)) l) s =
  Ok (Scope (sc_idx s) (Frame (fr_name f) (fr_vars f) (fr_out f ++ enc x) :: r) (sc_secs s)).
Proof.
  exact (fun n w s l h p f r v0 x Hh Hp S V F =>
    var_prints n w s l _ f r x S (proj2 (get_variable_iff h p (f :: r) (VStr x) Hh Hp) (ex_intro _ v0 (conj V F)))).
Qed.
Print Assumptions C15_prints.
Theorem C15_refuses : forall n w s l h p v0 v, ~ In c_dot h -> Forall (fun k => ~ In c_dot k) p ->
  visible h (sc_stack s) v0 -> field v0 p v -> (forall x, v <> VStr x) ->
  exec (S n) w (LTok (TVar (dotted h p)) l) s =
  Err (tb l (match v with
             | VNull => XE_NullError (dotted h p)
             | VBool _ => XE_InvalidDataType (dotted h p) (lit "string") (lit "bool")
             | VNum _ => XE_InvalidDataType (dotted h p) (lit "string") (lit "number")
             | VStr _ => XE_InvalidDataType (dotted h p) (lit "string") (lit "string")
             | VArr _ => XE_InvalidDataType (dotted h p) (lit "string") (lit "array")
             | VObj _ => XE_InvalidDataType (dotted h p) (lit "string") (lit "object")
             end)).
Proof. exact var_refuses. Qed.
Print Assumptions C15_refuses.
Theorem C15_undefined : forall n w s l h p, ~ In c_dot h -> Forall (fun k => ~ In c_dot k) p ->
  Forall (fun f => ~ In h (map fst (fr_vars f))) (sc_stack s) ->
  exec (S n) w (LTok (TVar (dotted h p)) l) s = Err (tb l (XE_UndefinedVariable (dotted h p))).
Proof.
  exact (fun n w s l h p Hh Hp F => var_undefined n w s l _ (proj2 (get_variable_none h p (sc_stack s) Hh Hp) F)).
Qed.
Print Assumptions C15_undefined.
Example C15_case : forall h i,
  let s := Scope 1 [Frame (lit "base") [(lit "v", VArr [VStr [8364%N]; VBool true])] [65%N]] [] in
  exec 1 (World h i []) (LTok (TVar (lit "v.0")) (Loc [] 3 4)) s =
    Ok (Scope 1 [Frame (lit "base") [(lit "v", VArr [VStr [8364%N]; VBool true])] [65; 226; 130; 172]%N] []) /\
  exec 1 (World h i []) (LTok (TVar (lit "v.1")) (Loc [] 3 4)) s =
    Err (TB [] 3 4 (XE_InvalidDataType (lit "v.1") (lit "string") (lit "bool"))).
Proof. intros. now vm_compute. Qed.

(** ** C16 *)
Theorem C16_blocks : forall n w t g s s', plugins_of plugin_ok (w_toks w) -> t_inner t = TFun g ->
  match g with FFor _ | FIfDefined _ | FIf _ _ _ => True | _ => False end ->
  current w s = Some t -> sc_stack s <> [] -> exec n w t s = Ok s' ->
  bindings (sc_stack s') = bindings (sc_stack s).
Proof. exact block_bindings. Qed.
Print Assumptions C16_blocks.
Theorem C16_sections : forall w s n label custom l s1 s2, plugins_of plugin_ok (w_toks w) -> sc_stack s <> [] ->
  exec n w (LTok (TFun (FBegin label custom)) l) s = Ok s1 ->
  steps w (length (sc_stack s)) s1 s2 -> (length (sc_stack s2) <= length (sc_stack s))%nat ->
  bindings (sc_stack s2) = bindings (sc_stack s).
Proof. exact section_bindings. Qed.
Print Assumptions C16_sections.
(** [bindings] determines every lookup. *)
Theorem C16_visible : forall st st' name, bindings st = bindings st' -> get_variable name st = get_variable name st'.
Proof. exact bindings_variable. Qed.
Print Assumptions C16_visible.
(** A loop importing a variable in its body: it is gone afterwards. *)
Example C16_case : forall h,
  let i := NDir [] [NFile (lit "a.json") [] (PJson (VStr (lit "A"))) None []] [] in
  let l := Loc [] 1 1 in
  let loop := LTok (TFun (FFor (ForFn (lit "x") (lit "xs") SrcVar None None None false))) l in
  let toks := [loop; LTok (TFun (FImport (lit "a") (lit "a.json"))) l; LTok (TVar (lit "a")) l; LTok (TFun (FEnd (lit "for") false)) l] in
  let base := Frame (lit "base") [(lit "xs", VArr [VNull; VNull])] [] in
  current (World h i toks) (Scope 1 [base] []) = Some loop /\
  exec 5 (World h i toks) loop (Scope 1 [base] []) =
    Ok (Scope 4 [Frame (lit "base") [(lit "xs", VArr [VNull; VNull])] [65; 65]%N] []).
Proof. intros. now vm_compute. Qed.

(** ** C17 *)
Theorem C17_immutable : forall n w t s s' d f f' k v, plugins_of plugin_ok (w_toks w) ->
  current w s = Some t -> sc_stack s <> [] -> exec n w t s = Ok s' ->
  nth_error (rev (sc_stack s)) d = Some f -> nth_error (rev (sc_stack s')) d = Some f' ->
  first_binding k (fr_vars f) v -> first_binding k (fr_vars f') v.
Proof. exact immutable. Qed.
Print Assumptions C17_immutable.
Theorem C17_import_new : forall n w l x file s f r nm b j meta src,
  current w s = Some (LTok (TFun (FImport x file)) l) -> sc_stack s = f :: r ->
  get_at_path (w_input w) file = Some (NFile nm b (PJson j) meta src) -> ~ In x (map fst (fr_vars f)) ->
  exec (S n) w (LTok (TFun (FImport x file)) l) s =
  Ok (Scope (sc_idx s) (Frame (fr_name f) (fr_vars f ++ [(x, j)]) (fr_out f) :: r) (sc_secs s)).
Proof. exact import_new. Qed.
Print Assumptions C17_import_new.
Theorem C17_import_again : forall n w l x file s f r nm b j meta src,
  current w s = Some (LTok (TFun (FImport x file)) l) -> sc_stack s = f :: r ->
  get_at_path (w_input w) file = Some (NFile nm b (PJson j) meta src) -> In x (map fst (fr_vars f)) ->
  exec (S n) w (LTok (TFun (FImport x file)) l) s = Err (tb l (XE_VariableAlreadyExists x)).
Proof. exact import_again. Qed.
Print Assumptions C17_import_again.
Example C17_case : forall h,
  let i := NDir [] [NFile (lit "a.json") [] (PJson (VStr (lit "A"))) None []] [] in
  let t := LTok (TFun (FImport (lit "a") (lit "./a.json"))) (Loc [] 1 1) in
  let s := Scope 1 [Frame (lit "for:y") [] []; Frame (lit "base") [(lit "a", VNull)] []] [] in
  exists s', exec 1 (World h i [t; t]) t s = Ok s' /\ get_variable (lit "a") (sc_stack s') = Some (VStr (lit "A")) /\
    exec 1 (World h i [t; t]) t s' = Err (TB [] 1 1 (XE_VariableAlreadyExists (lit "a"))).
Proof. intros. eexists. now vm_compute. Qed.

(** ** C18 *)
Theorem C18_stuart_env_refuted : exists h osenv mode d out,
  snd (build h osenv mode d (stuart_new config_default [])) = Ok tt /\
  st_output (fst (build h osenv mode d (stuart_new config_default []))) = Some out /\
  option_map n_contents (get_at_path out (lit "a.html")) = Some (Some (enc (lit "other"))) /\
  mode = lit "production" /\ d = C18_site.
Proof. exact stuart_env_refuted. Qed.
Print Assumptions C18_stuart_env_refuted.
Theorem C18_stuart_env_partial : forall h osenv mode d st, snd (build h osenv mode d st) = Ok tt ->
  ~ In (lit "STUART_ENV") (map fst osenv) ->
  exists b, st_base (fst (build h osenv mode d st)) = Some b /\
    get_variable (lit "env.STUART_ENV") [b] = Some (VStr mode).
Proof.
  exact (fun h osenv mode d st H N => ex_intro _ _ (conj (build_base h osenv mode d st H) (stuart_env osenv mode N))).
Qed.
Print Assumptions C18_stuart_env_partial.
(** In every scope of a page in which nothing else is called [env]: the first in the environment, with the
    mode behind it. *)
Theorem C18_exact_partial : forall h osenv mode d st, snd (build h osenv mode d st) = Ok tt ->
  exists b v, st_base (fst (build h osenv mode d st)) = Some b /\
    first_binding (lit "STUART_ENV") (osenv ++ [(lit "STUART_ENV", mode)]) v /\
    forall inner f, grown b f -> Forall (fun g => ~ In (lit "env") (map fst (fr_vars g))) inner ->
    get_variable (lit "env.STUART_ENV") (inner ++ [f]) = Some (VStr v).
Proof.
  exact (fun h osenv mode d st H => match stuart_env_exact osenv mode with
         | ex_intro _ v K => ex_intro _ _ (ex_intro _ v (conj (build_base h osenv mode d st H) K)) end).
Qed.
Print Assumptions C18_exact_partial.
Example C18_case : exists out,
  let r := build (Host (fun _ => false) (fun t => t) None (fun _ => None)) [(lit "HOME", lit "/")] (lit "production")
             C18_site (stuart_new config_default []) in
  snd r = Ok tt /\ st_output (fst r) = Some out /\
  option_map n_contents (get_at_path out (lit "a.html")) = Some (Some (enc (lit "production"))).
Proof. eexists. now vm_compute. Qed.

(** ** C19 *)
Theorem C19_root_scope : forall pr e src p b root o secs, plugins_of plugin_ok (page_tokens e p) ->
  ~ In c_colon (fr_name b) -> pr_base pr = Some b -> ev_root e = Some root -> records pr e p secs ->
  render_page pr e src p = Ok o -> exists out, po_contents o = Some out /\ root_prints pr root b secs out.
Proof. exact render_root. Qed.
Print Assumptions C19_root_scope.
Theorem C19_same_sections : forall pr e src1 src2 p1 p2 b root o1 o2 secs,
  plugins_of plugin_ok (page_tokens e p1) -> plugins_of plugin_ok (page_tokens e p2) ->
  ~ In c_colon (fr_name b) -> pr_base pr = Some b -> ev_root e = Some root ->
  records pr e p1 secs -> records pr e p2 secs ->
  render_page pr e src1 p1 = Ok o1 -> render_page pr e src2 p2 = Ok o2 -> po_contents o1 = po_contents o2.
Proof. exact same_sections. Qed.
Print Assumptions C19_same_sections.
(** The base scope of a build meets the hypotheses on [b]. *)
Theorem C19_base : forall vars, ~ In c_colon (fr_name (base_frame vars)) /\ map fst (fr_vars (base_frame vars)) = [lit "env"].
Proof. exact base_frame_ok. Qed.
Print Assumptions C19_base.
(** The root template cannot print the variable imported by the page. *)
Example C19_case : forall h,
  let i := NDir [] [NFile (lit "a.json") [] (PJson (VStr (lit "A"))) None []] [] in
  let l := Loc [] 1 1 in
  let pr := Processor h (Some i) (Some (base_frame [])) false in
  let imp := LTok (TFun (FImport (lit "a") (lit "a.json"))) l in
  let pg := [imp; LTok (TFun (FBegin (lit "s") true)) l; LTok (TVar (lit "a")) l; LTok (TFun (FEnd (lit "s") true)) l] in
  process_html pr (Env [] (Some [LTok (TFun (FInsert (lit "s"))) l]) None) [] pg = Ok (POut (Some [65%N]) None) /\
  process_html pr (Env [] (Some [LTok (TVar (lit "a")) l]) None) [] pg = Err (TB [] 1 1 (XE_UndefinedVariable (lit "a"))).
Proof. intros. now vm_compute. Qed.
