(** PropJsLoad.v -- property C80: how a JavaScript plugin is loaded. *)

From Coq Require Import String List NArith ZArith Bool Lia.
From Verif Require Import Text Utf8 Json Base Syntax Tree Interp Disk Cli Load Js JsLoad SpecTree SpecDisk SpecProject SpecJsLoad TextFacts JsLoadFacts.
From Verif Require SpecChars.
Import ListNotations.

(** ** C80 *)
(** A proper export: name, version, and an array of entries with different names.  The plugin has
    that name and version, no file parsers, and one function per entry, in order, that runs the code of
    that entry. *)
Theorem C80_loads_partial : forall V e name version fs, describes e name version fs -> (N.of_nat (length fs) < 4294967296)%N ->
  NoDup (map fst fs) ->
  exists pl, load_default V e = Ok (pl, version) /\ pl_name pl = name /\ pl_parsers pl = [] /\ Forall2 provides (pl_fns pl) fs.
Proof. exact loads. Qed.
Print Assumptions C80_loads_partial.
(** Of several entries with one name, all run the code of the last. *)
Theorem C80_last_partial : forall V e name version fs, describes e name version fs -> (N.of_nat (length fs) < 4294967296)%N ->
  exists pl, load_default V e = Ok (pl, version) /\ pl_name pl = name /\ pl_parsers pl = [] /\
    Forall2 (fun pp nc => pp_name pp = fst nc /\ forall c, last_of fs (fst nc) c -> provides pp (fst nc, c)) (pl_fns pl) fs.
Proof. exact loads_last. Qed.
Print Assumptions C80_last_partial.
(** From the dependency in the manifest to the plugin. *)
Theorem C80_dependency_partial : forall L V io fs root dep src p b t e name version l d, meant root src p -> what p d = KFile b ->
  has_ext (last p []) (lit "js") \/ has_ext (last p []) (lit "mjs") -> lo_js L = true -> lo_script L = load_js V io ->
  SpecChars.utf8_text b t -> v8_module V p t = MDefault e ->
  describes e name version l -> (N.of_nat (length l) < 4294967296)%N -> NoDup (map fst l) ->
  exists pl, load_from_source L fs root dep src d = (d, LOk [pl]) /\ pl_name pl = name /\ pl_parsers pl = [] /\ Forall2 provides (pl_fns pl) l.
Proof.
  exact (fun L V io fs root dep src p b t e name version l d M W X J S U MD D B ND =>
    match loads V e name version l D B ND with
    | ex_intro _ pl (conj E R) =>
        ex_intro _ pl (conj (from_dependency L V io fs root dep src p b d pl version M W X J S (eq_trans (from_file V io p b t e d W U MD) E)) R)
    end).
Qed.
Print Assumptions C80_dependency_partial.
(** What is refused: a file that is not text or that V8 does not evaluate, no default export, no list
    of functions; and an array with an entry that is undefined or null. *)
Theorem C80_file_partial : forall V io p d pl, load_js_plugin V io p d = Ok pl ->
  exists b t e, what p d = KFile b /\ SpecChars.utf8_text b t /\ v8_module V p t = MDefault e /\ ~ nothing e.
Proof. exact file_needed. Qed.
Print Assumptions C80_file_partial.
Theorem C80_functions_partial : forall V e l, object e l -> ~ In XThrow (map snd l) ->
  (exists v, prop l (lit "functions") v /\ nothing v) \/ ~ In (lit "functions") (map fst l) ->
  load_default V e = Err (lit "missing plugin functions").
Proof. exact refused_functions. Qed.
Print Assumptions C80_functions_partial.
Theorem C80_entries_partial : forall V e l js pl v, object e l -> prop l (lit "functions") (XArr js) ->
  (N.of_nat (length js) < 4294967296)%N -> (forall x, In x js -> x <> XThrow) -> load_default V e = Ok (pl, v) ->
  length (pl_fns pl) = length js /\ pl_parsers pl = [] /\ forall x, In x js -> ~ nothing x.
Proof. exact loaded_counts. Qed.
Print Assumptions C80_entries_partial.

(** Two functions with one name: calls of the first run the second. *)
Theorem C80_duplicate_refuted : exists V e c1 c2 pl v pp p1 p2,
  describes e (lit "p") (lit "1") [(lit "f", c1); (lit "f", c2)] /\ load_default V e = Ok (pl, v) /\ pl_fns pl = [pp; pp] /\
  pp_parse pp (RawFn (lit "f") [] []) = inr p1 /\ pf_exec p1 (Loc [] 1 1) (Scope 0 [new_frame []] []) = Ok (Scope 0 [add_out (enc (lit "second")) (new_frame [])] []) /\
  js_exec c1 [] (Loc [] 1 1) (Scope 0 [new_frame []] []) = Ok p2 /\ p2 = Scope 0 [add_out (enc (lit "first")) (new_frame [])] [].
Proof.
  exists (V8 (fun _ _ => MCompile) (fun _ => []) (fun _ => None) (fun _ _ => XUndef)),
    (XObj [(lit "name", XStr (lit "p")); (lit "version", XStr (lit "1"));
           (lit "functions", XArr [XObj [(lit "name", XStr (lit "f")); (lit "fn", XFun (fun _ => JsReturn (Some (lit "first"))) [])];
                                   XObj [(lit "name", XStr (lit "f")); (lit "fn", XFun (fun _ => JsReturn (Some (lit "second"))) [])]])]),
    (fun _ => JsReturn (Some (lit "first"))), (fun _ => JsReturn (Some (lit "second"))).
  set (c1 := fun _ => JsReturn (Some (lit "first"))). set (c2 := fun _ => JsReturn (Some (lit "second"))).
  set (g := [(lit "_stuart_f", XFun c2 []); (lit "_stuart_f", XFun c1 [])]).
  exists (Plugin (lit "p") [js_parser g (lit "f"); js_parser g (lit "f")] []), (lit "1"), (js_parser g (lit "f")),
    (PluginFn None (js_call g (lit "f") []) None), (Scope 0 [add_out (enc (lit "first")) (new_frame [])] []). split.
  - eexists _, _. split; [left; reflexivity|]. split; [eexists [], _; split; [reflexivity|intros []]|].
    split; [eexists [_], _; split; [reflexivity|intros [X|[]]; discriminate X]|]. split; [eexists [_; _], _; split; [reflexivity|intros [X|[X|[]]]; discriminate X]|].
    constructor; [|constructor; [|constructor]]; (eexists _, _; split; [left; reflexivity|]; split; [eexists [], _; split; [reflexivity|intros []]|]; eexists [_], _; split; [reflexivity|intros [X|[]]; discriminate X]).
  - repeat split; reflexivity.
Qed.
Print Assumptions C80_duplicate_refuted.
(** Without a name and a version the plugin loads, and is called [undefined]. *)
Theorem C80_name_refuted : forall V, exists e l pl, object e l /\ ~ In (lit "name") (map fst l) /\ ~ In (lit "version") (map fst l) /\
  load_default V e = Ok (pl, lit "undefined") /\ pl_name pl = lit "undefined".
Proof.
  intros V. exists (XObj [(lit "functions", XArr [])]). eexists _, (Plugin (lit "undefined") [] []). split; [left; reflexivity|]. split; [intros [X|[]]; discriminate X|]. split; [intros [X|[]]; discriminate X|]. split; reflexivity.
Qed.
Print Assumptions C80_name_refuted.
(** Functions given as an object instead of an array: the plugin loads, without functions. *)
Theorem C80_object_refuted : forall V c, exists e l pl v, object e l /\ prop l (lit "functions") (XObj [(lit "add", XFun c [])]) /\
  load_default V e = Ok (pl, v) /\ pl_fns pl = [].
Proof.
  intros V c. exists (XObj [(lit "functions", XObj [(lit "add", XFun c [])])]). eexists _, (Plugin (lit "undefined") [] []), (lit "undefined"). split; [left; reflexivity|]. split; [exists [], []; split; [reflexivity|intros []]|]. split; reflexivity.
Qed.
Print Assumptions C80_object_refuted.
(** An entry without code: the plugin loads, and every call without arguments panics. *)
Theorem C80_code_refuted : forall V, exists e pl v pp, load_default V e = Ok (pl, v) /\ pl_fns pl = [pp] /\ pp_name pp = lit "f" /\
  forall named, exists p, pp_parse pp (RawFn (lit "f") [] named) = inr p /\ forall l s, pf_exec p l s = Panic Pn_plugin.
Proof.
  intros V. exists (XObj [(lit "name", XStr (lit "p")); (lit "functions", XArr [XObj [(lit "name", XStr (lit "f")); (lit "func", XUndef)]])]). 
  exists (Plugin (lit "p") [js_parser [(lit "_stuart_f", XUndef)] (lit "f")] []), (lit "undefined"), (js_parser [(lit "_stuart_f", XUndef)] (lit "f")).
  split; [reflexivity|]. split; [reflexivity|]. split; [reflexivity|]. intros named. eexists. split; [reflexivity|]. intros l s. reflexivity.
Qed.
Print Assumptions C80_code_refuted.
(** Loading itself may panic: a length that is not a number. *)
Theorem C80_panic_refuted : exists V e, load_default V e = Panic Pn_plugin.
Proof.
  exists (V8 (fun _ _ => MCompile) (fun _ => []) (fun _ => None) (fun _ _ => XUndef)), (XObj [(lit "functions", XObj [(lit "length", XSym)])]). reflexivity.
Qed.
Print Assumptions C80_panic_refuted.

(** A plugin with two functions: it loads, and the functions run their code. *)
Definition C80_export : jx :=
  XObj [(lit "name", XStr (lit "math")); (lit "version", XStr (lit "1.0"));
        (lit "functions", XArr [XObj [(lit "name", XStr (lit "one")); (lit "fn", XFun (fun _ => JsReturn (Some (lit "1"))) [])];
                                XObj [(lit "fn", XFun (fun _ => JsReturn (Some (lit "2"))) []); (lit "name", XStr (lit "two"))]])].
Example C80_case : describes C80_export (lit "math") (lit "1.0")
    [(lit "one", fun _ => JsReturn (Some (lit "1"))); (lit "two", fun _ => JsReturn (Some (lit "2")))] /\
  NoDup [lit "one"; lit "two"] /\
  forall V, exists pl, load_default V C80_export = Ok (pl, lit "1.0") /\ map pp_name (pl_fns pl) = [lit "one"; lit "two"].
Proof.
  split.
  - eexists _, _. split; [left; reflexivity|]. split; [eexists [], _; split; [reflexivity|intros []]|].
    split; [eexists [_], _; split; [reflexivity|intros [X|[]]; discriminate X]|]. split; [eexists [_; _], _; split; [reflexivity|intros [X|[X|[]]]; discriminate X]|].
    constructor; [|constructor; [|constructor]].
    + eexists _, _. split; [left; reflexivity|]. split; [eexists [], _; split; [reflexivity|intros []]|]. eexists [_], _. split; [reflexivity|intros [X|[]]; discriminate X].
    + eexists _, _. split; [left; reflexivity|]. split; [eexists [_], _; split; [reflexivity|intros [X|[]]; discriminate X]|]. eexists [], _. split; [reflexivity|intros []].
  - split; [constructor; [intros [X|[]]; discriminate X|constructor; [intros []|constructor]]|]. intros V. eexists. split; reflexivity.
Qed.
Example C80_refused_case : forall V, load_default V XNull = Err (lit "failed to get default export") /\
  load_default V (XObj [(lit "name", XStr (lit "p"))]) = Err (lit "missing plugin functions") /\
  load_default V (XObj [(lit "functions", XArr [XNull])]) = Err (lit "missing function at index 0") /\
  load_default V (XObj [(lit "name", XThrow)]) = Err (lit "missing plugin name").
Proof. intros V. repeat split; reflexivity. Qed.
