(** JsLoad.v -- how a JavaScript plugin is loaded: stuart/src/plugins/js/mod.rs:46-155 and the call of
    its functions, 179-221.  V8 compiles and evaluates the module; the model begins with the value of
    its default export. *)

From Coq Require Import String List NArith ZArith Bool.
From Verif Require Import Text Utf8 Json Base Syntax Tree Interp Disk Js.
Import ListNotations.

(** A value of the exports of a module, with the code of functions.  Properties are those an access
    finds, own or inherited; [XThrow] stands for a property whose getter throws, for which
    [v8::Object::get] is [None].  Functions have properties too.  Arrays are dense and have no other
    properties.  Values reached by js/mod.rs:77-133. *)
Inductive jx :=
| XUndef | XNull | XBool (b : bool) | XNum (x : f64) | XStr (t : text) | XSym
| XFun (code : js_code) (l : list (text * jx))
| XArr (l : list jx)
| XObj (l : list (text * jx))
| XThrow.

(** What V8 makes of a module text, js/mod.rs:69-85: the first three are the results [None] of
    [compile_module], [instantiate_module] and [evaluate]. *)
Inductive module_res := MCompile | MInstantiate | MEvaluate | MDefault (v : jx).

(** V8: the module; the conversions to string and to a 32 bit integer of values that are neither
    undefined, null, booleans, strings nor numbers ([None]: it throws); properties of primitive values
    and of arrays, other than [length] and the elements. js/mod.rs:69-133. *)
Record v8 := V8 {
  v8_module : path -> text -> module_res;
  v8_text : jx -> text;
  v8_uint : jx -> option N;
  v8_member : jx -> text -> jx
}.

(** [Value::to_rust_string_lossy], js/mod.rs:91,97,126. *)
Definition to_text (V : v8) (v : jx) : text :=
  match v with
  | XUndef => lit "undefined"
  | XNull => lit "null"
  | XBool true => lit "true"
  | XBool false => lit "false"
  | XStr t => t
  | _ => v8_text V v
  end.
(** [Value::uint32_value], js/mod.rs:109: ToUint32 of ECMAScript. *)
Definition to_uint32 (V : v8) (v : jx) : option N :=
  match v with
  | XUndef | XNull | XBool false => Some 0%N
  | XBool true => Some 1%N
  | XNum (FFin m e) => Some (Z.to_N (f64_trunc m e mod 4294967296))
  | XNum _ => Some 0%N
  | _ => v8_uint V v
  end.
(** [Value::to_object], js/mod.rs:84,103,118: throws for undefined and null only. *)
Definition to_object (v : jx) : option jx :=
  match v with XUndef | XNull | XThrow => None | _ => Some v end.
(** The property of that name in a list of properties; undefined if there is none.  Part of
    [v8::Object::get], js/mod.rs:89-131. *)
Fixpoint member (k : text) (l : list (text * jx)) : jx :=
  match l with
  | [] => XUndef
  | (k', v) :: l' => if text_eqb k' k then v else member k l'
  end.
(** The value of a property, or that reading it throws.  js/mod.rs:89-131. *)
Definition read (v : jx) : option jx := match v with XThrow => None | _ => Some v end.
(** [v8::Object::get], js/mod.rs:89-131. *)
Definition get (V : v8) (v : jx) (k : text) : option jx :=
  match v with
  | XObj l | XFun _ l => read (member k l)
  | XArr l => if text_eqb k (lit "length") then Some (XNum (FFin (Z.of_nat (length l)) 0)) else read (v8_member V v k)
  | _ => read (v8_member V v k)
  end.
(** [v8::Object::get_index], js/mod.rs:115. *)
Definition get_index (V : v8) (v : jx) (i : N) : option jx :=
  match v with
  | XArr l => read (nth (N.to_nat i) l XUndef)
  | _ => get V v (show_N i)
  end.

(** The properties [_stuart_...] of the global object, the last set first; js/mod.rs:132-133,204-205.
    Code of the plugin that sets them itself is not modelled. *)
Definition globals := list (text * jx).
(** [?] with a message, js/mod.rs:82-131. *)
Definition need {A} (o : option A) (m : text) : res text A := match o with Some x => Ok x | None => Err m end.
(** The function a global holds: [try_from(..).unwrap()], js/mod.rs:204-206. *)
Definition callee (g : globals) (name : text) : option js_code :=
  match member (lit "_stuart_" ++ name) g with XFun c _ => Some c | _ => None end.

(** [JSFunction::execute], js/mod.rs:179-221: the arguments come first, then the function is looked
    up. *)
Definition js_call (g : globals) (name : text) (args : list rawarg) (l : loc) (s : scope)
  : res (traceback process_error) scope :=
  let? vs := map_res (js_arg l s) args in
  match callee g name with
  | None => Panic Pn_plugin
  | Some code =>
      let? sr := js_run (code vs) s in
      match snd sr with
      | None => Ok (fst sr)
      | Some t => match output (enc t) (fst sr) with Ok s2 => Ok s2 | _ => Panic Pn_plugin end
      end
  end.
(** [JSFunctionParser], js/mod.rs:27-32 and 157-177. *)
Definition js_parser (g : globals) (name : text) : plugin_parser :=
  {| pp_name := name;
     pp_parse := fun r => inr {| pf_name := None; pf_exec := js_call g name (rf_pos r); pf_call := None |} |}.

(** The loop over the functions, js/mod.rs:113-136: [n] of them from index [i]. *)
Fixpoint load_fns (V : v8) (fs : jx) (n : nat) (i : N) (g : globals) : res text (list text * globals) :=
  match n with
  | O => Ok ([], g)
  | S n' =>
      let at_i m := m ++ lit " function at index " ++ show_N i in
      let? v := need (get_index V fs i) (at_i (lit "missing")) in
      let? o := need (to_object v) (at_i (lit "missing")) in
      let? x := need (get V o (lit "name")) (at_i (lit "invalid")) in
      let name := to_text V x in
      let? f := need (get V o (lit "fn")) (at_i (lit "invalid")) in
      let? r := load_fns V fs n' (i + 1) ((lit "_stuart_" ++ name, f) :: g) in
      Ok (name :: fst r, snd r)
  end.

(** From the default export to the plugin and its version, js/mod.rs:77-154; the [unwrap] of 110. *)
Definition load_default (V : v8) (e : jx) : res text (plugin * text) :=
  let? o := need (to_object e) (lit "failed to get default export") in
  let? n := need (get V o (lit "name")) (lit "missing plugin name") in
  let? v := need (get V o (lit "version")) (lit "missing plugin version") in
  let? f := need (get V o (lit "functions")) (lit "missing plugin functions") in
  let? fs := need (to_object f) (lit "missing plugin functions") in
  let? len := need (get V fs (lit "length")) (lit "missing plugin functions") in
  match to_uint32 V len with
  | None => Panic Pn_plugin
  | Some k =>
      let? r := load_fns V fs (N.to_nat k) 0 [] in
      Ok (Plugin (to_text V n) (map (js_parser (snd r)) (fst r)) [], to_text V v)
  end.

(** [load_js_plugin], js/mod.rs:46-155: the file is read as text; [io] is the message of a failed
    read. *)
Definition load_js_plugin (V : v8) (io : text) (p : path) (d : ent) : res text (plugin * text) :=
  match lookup p d with
  | Some (EFile b) =>
      match from_utf8 b with
      | None => Err io
      | Some src =>
          match v8_module V p src with
          | MCompile => Err (lit "failed to compile module")
          | MInstantiate => Err (lit "failed to instantiate module")
          | MEvaluate => Err (lit "failed to evaluate module")
          | MDefault e => load_default V e
          end
      end
  | _ => Err io
  end.
(** [DynamicPluginManager::load_js], plugins/mod.rs:246-251; the version is not kept in [plugin]. *)
Definition load_js (V : v8) (io : text) (p : path) (d : ent) : res text plugin :=
  let? pv := load_js_plugin V io p d in Ok (fst pv).
