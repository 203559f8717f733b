(** PropState.v -- plugins that keep state (C96, C45, C20). *)

From Coq Require Import String List NArith ZArith Bool.
From Verif Require Import Text Utf8 Json Base Syntax Parse Tree Interp Build Js State SpecTree SpecRender SpecState SpecSRender StateFacts SRenderFacts.
Import ListNotations.

(** ** C96 *)
Theorem C96_isolated {Y} (code : N -> text -> option (sjs_code Y)) : forall h osenv mode ds b x, exists calls x' results,
  sbuilds (js_behaviour code) h osenv mode ds b x = (x', results) /\
  sbuilds (recording (js_behaviour code)) h osenv mode ds b (x, []) = ((x', calls), results) /\
  sbuilds scripted h osenv mode ds b calls = ([], results) /\
  forall c, replays code c (x c) calls (x' c).
Proof. exact (js_log code). Qed.
Print Assumptions C96_isolated.

Theorem C96_others {Y} (code : N -> text -> option (sjs_code Y)) (C : N -> Prop) : forall h osenv mode ds b x x',
  plugins_give (fun p => forall c, in_context c p -> C c) (st_plugins b) ->
  (forall c, C c -> x c = x' c) ->
  snd (sbuilds (js_behaviour code) h osenv mode ds b x) = snd (sbuilds (js_behaviour code) h osenv mode ds b x') /\
  (forall c, C c -> fst (sbuilds (js_behaviour code) h osenv mode ds b x) c = fst (sbuilds (js_behaviour code) h osenv mode ds b x') c) /\
  (forall c, ~ C c -> fst (sbuilds (js_behaviour code) h osenv mode ds b x) c = x c).
Proof. exact (builds_local code C). Qed.
Print Assumptions C96_others.

Theorem C96_stateless {X} (beh : State.behaviour X) : forall h osenv mode d b x,
  plugins_give (fun p => forall l s x, snd (beh p l s x) = pf_exec p l s) (st_plugins b) ->
  snd (sbuild beh h osenv mode d b x) = build h osenv mode d b.
Proof. exact (answers_plain beh). Qed.
Print Assumptions C96_stateless.

Theorem C96_native {Y} (code : N -> text -> option (sjs_code Y)) : forall h osenv mode d b x,
  plugins_give (fun p => pf_call p = None) (st_plugins b) ->
  sbuild (js_behaviour code) h osenv mode d b x = (x, build h osenv mode d b).
Proof. exact (native_plain code). Qed.
Print Assumptions C96_native.

(** A function of a module: it sees and changes what its own module keeps, and calls its own code. *)
Theorem C96_module {Y} (code code' : N -> text -> option (sjs_code Y)) c name fns : forall f raw p l s x x',
  In f (pl_fns (sjs_plugin c name fns)) -> pp_parse f raw = inr p ->
  (forall g, code c g = code' c g) -> x c = x' c ->
  (forall c', c' <> c -> fst (js_behaviour code p l s x) c' = x c') /\
  snd (js_behaviour code p l s x) = snd (js_behaviour code' p l s x') /\
  fst (js_behaviour code p l s x) c = fst (js_behaviour code' p l s x') c.
Proof. exact (module_call code code' c name fns). Qed.
Print Assumptions C96_module.

Theorem C96_modules {Y} (code : N -> text -> option (sjs_code Y)) (mods : list (N * text * list text)) :
  forall h osenv mode ds c x x',
  let b := stuart_new c (map (fun m => sjs_plugin (fst (fst m)) (snd (fst m)) (snd m)) mods) in
  let own c := In c (map (fun m => fst (fst m)) mods) in
  (forall c, own c -> x c = x' c) ->
  snd (sbuilds (js_behaviour code) h osenv mode ds b x) = snd (sbuilds (js_behaviour code) h osenv mode ds b x') /\
  (forall c, own c -> fst (sbuilds (js_behaviour code) h osenv mode ds b x) c = fst (sbuilds (js_behaviour code) h osenv mode ds b x') c) /\
  (forall c, ~ own c -> fst (sbuilds (js_behaviour code) h osenv mode ds b x) c = x c).
Proof. exact (modules_builds code mods). Qed.
Print Assumptions C96_modules.

(** The order of the calls: that of rendering the blocks, as in C20. *)
Theorem C20_state_partial {Y} (code : N -> text -> option (sjs_code Y)) others : forall h site l f r secs x,
  Forall (apt (js_does code others) (js_behaviour code)) l ->
  let st := RState (map fr_vars (f :: r)) secs in
  let result := srun (js_behaviour code) (World h site (flat_map flat l)) (Scope 0 (f :: r) secs) x in
  snd (srender_all (js_does code others) false h site l st x) <> ROdd ->
  match srender_all (js_does code others) true h site l st x with
  | (x', RDone o st') => exists new, rs_scopes st' = (fr_vars f ++ new) :: map fr_vars r /\
      result = (x', Ok (Scope (length (flat_map flat l)) (Frame (fr_name f) (fr_vars f ++ new) (fr_out f ++ o) :: r) (rs_secs st')))
  | (x', RStop e) => result = (x', Err e)
  | (x', RPanic p) => result = (x', Panic p)
  | (_, ROdd) => False
  end.
Proof. exact (sblock_structure (js_behaviour code) (js_does code others)). Qed.
Print Assumptions C20_state_partial.

Theorem C96_calls {Y} (code : N -> text -> option (sjs_code Y)) others : forall p,
  (pf_call p = None -> acts p (others p)) -> doing (js_does code others) (js_behaviour code) p.
Proof. exact (js_doing code others). Qed.
Print Assumptions C96_calls.

(** Two plugins with a counter each. *)
Definition C96_inc : sjs_code N := fun n _ => SReturn (n + 1)%N (Some (show_N n)).
Definition C96_code (c : N) (f : text) : option (sjs_code N) := if text_eqb f (lit "inc") then Some C96_inc else None.
Definition C96_plugins : list plugin := [sjs_plugin 0 (lit "a") [lit "inc"]; sjs_plugin 1 (lit "b") [lit "inc"]].
Definition C96_host : host := Host (fun _ => false) (fun t => t) None (fun _ => None).
Definition C96_site (page : string) : source_dir := SourceDir [lit "content"] (lit "content") (Some (EDir
  [(lit "root.html", EFile (lit "{{ insert(""b"") }}")); (lit "x.html", EFile (lit page))])).
Definition C96_pages (r : contexts N * list (stuart * res error unit)) : list (option bytes) * N * N :=
  (map (page_of (lit "x.html")) (snd r), fst r 0%N, fst r 1%N).
Example C96_case :
  let b := stuart_new config_default C96_plugins in
  let d := C96_site "{{ begin(""b"") }}{{ a::inc() }} {{ a::inc() }} {{ b::inc() }} {{ a::inc() }}{{ end(""b"") }}" in
  C96_pages (sbuilds (js_behaviour C96_code) C96_host [] (lit "development") [d; d] b (fun _ => 0%N)) =
    ([Some (lit "0 1 0 2"); Some (lit "3 4 1 5")], 6%N, 2%N) /\
  map ca_loc (snd (fst (sbuild (recording (js_behaviour C96_code)) C96_host [] (lit "development") d b (fun _ => 0%N, [])))) =
    map (Loc [lit "content"; lit "x.html"] 1) [19; 34; 49; 64]%N /\
  (* a site that does not use the second plugin *)
  plugins_give (fun p => forall c, in_context c p -> c = 0%N) [sjs_plugin 0 (lit "a") [lit "inc"]] /\
  (* counting the calls of functions that keep nothing *)
  fst (sbuild (fun p l s n => (S n, pf_exec p l s)) C96_host [] (lit "development")
         (C96_site "{{ begin(""b"") }}{{ d::hi() }}{{ d::hi() }}{{ end(""b"") }}")
         (stuart_new config_default [Plugin (lit "d") [PluginParser (lit "hi") (fun _ => inr (PluginFn None (fun l s => match output (lit "hi") s with Ok s1 => Ok s1 | _ => Panic Pn_plugin end) None))] []]) 0) = 2.
Proof.
  split; [vm_compute; reflexivity|]. split; [vm_compute; reflexivity|]. split; [|vm_compute; reflexivity].
  intros pl f raw g [<-|[]] [<-|[]] E c (n & args & F). cbn in E. injection E as <-. cbn in F. now injection F as <- _ _.
Qed.

(** The second of two modules: a call of its counter leaves the first alone. *)
Example C96_module_case :
  let p := PluginFn None (fun _ _ => Panic Pn_plugin) (Some (PCall 1%N (lit "inc") [])) in
  let s := Scope 0 [Frame (lit "base") [] []] [] in
  let r := js_behaviour C96_code p (Loc [] 1 1) s (fun c => (c + 4)%N) in
  (exists f raw, In f (pl_fns (sjs_plugin 1 (lit "b") [lit "inc"])) /\ pp_parse f raw = inr p) /\
  (fst r 0%N, fst r 1%N) = (4%N, 6%N) /\ snd r = Ok (Scope 0 [Frame (lit "base") [] (enc (lit "5"))] []).
Proof.
  split; [|now vm_compute]. exists (sjs_parser 1 (lit "inc")), (RawFn (lit "b::inc") [] []). split; [now left|reflexivity].
Qed.

(** A loop over two items that calls the counter before and after each of them. *)
Definition C96_fn (c : N) : plugin_fn := PluginFn None (fun _ _ => Panic Pn_plugin) (Some (PCall c (lit "inc") [])).
Definition C96_items : list item :=
  let l := Loc [] 1 1 in let call c := IPlugin l (C96_fn c) (fun _ _ _ => OutOfFuel) in
  [call 0%N;
   IFor l (ForFn (lit "x") (lit "xs") SrcVar None None None false) [call 0%N; ILeaf (LTok (TVar (lit "x")) l); call 1%N] l;
   call 0%N].
Example C20_state_case : forall others,
  let f := Frame (lit "base") [(lit "xs", VArr [VStr (lit "a"); VStr (lit "b")])] [] in
  let r := srender_all (js_does C96_code others) false C96_host (NDir [] [] []) C96_items (RState [fr_vars f] []) (fun _ => 5%N) in
  Forall (apt (js_does C96_code others) (js_behaviour C96_code)) C96_items /\
  snd r = RDone (enc (lit "56a57b68")) (RState [fr_vars f] []) /\ (fst r 0%N, fst r 1%N) = (9%N, 7%N).
Proof.
  intros others f r. split; [|split; now vm_compute].
  assert (D : forall c, doing (js_does C96_code others) (js_behaviour C96_code) (C96_fn c)) by (intros c; apply C96_calls; discriminate).
  repeat constructor; apply D.
Qed.

(** ** C45 *)
Theorem C45_state_partial {X} (beh : State.behaviour X) c ps : forall x b h osenv mode d, used beh c ps x b ->
  fst (sbuild beh h osenv mode d b x) = fst (sbuild beh h osenv mode d (stuart_new c ps) x) /\
  snd (snd (sbuild beh h osenv mode d b x)) = snd (snd (sbuild beh h osenv mode d (stuart_new c ps) x)) /\
  (snd (snd (sbuild beh h osenv mode d b x)) = Ok tt -> snd (sbuild beh h osenv mode d b x) = snd (sbuild beh h osenv mode d (stuart_new c ps) x)).
Proof. intros x b h osenv mode d. exact (used_fresh beh c ps x b h osenv mode d). Qed.
Print Assumptions C45_state_partial.

(** The same content built twice by one process. *)
Theorem C45_state_refuted : exists (code : N -> text -> option (sjs_code N)) h osenv mode d b x,
  match snd (sbuilds (js_behaviour code) h osenv mode [d; d] b x) with
  | [first; second] => snd first = Ok tt /\ snd second = Ok tt /\ page_of (lit "x.html") first <> page_of (lit "x.html") second
  | _ => False
  end.
Proof.
  exists C96_code, C96_host, [], (lit "development"), (C96_site "{{ begin(""b"") }}{{ a::inc() }}{{ end(""b"") }}"), (stuart_new config_default C96_plugins), (fun _ => 0%N).
  vm_compute. repeat split. discriminate.
Qed.
Print Assumptions C45_state_refuted.
