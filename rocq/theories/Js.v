(** Js.v -- JavaScript plugins: stuart/src/plugins/js/{mod,json,context}.rs.  V8 itself is not
    modelled beyond the values below and the order of own properties of an object. *)

From Coq Require Import String List NArith ZArith Bool.
From Verif Require Import Text Utf8 Json Base Syntax Interp.
Import ListNotations.

(** V8 values as seen by json.rs: [JsOther] is what is none of the tested kinds (symbols,
    bigints); functions and class instances are objects. *)
Inductive jsv :=
| JsUndef | JsNull | JsBool (b : bool) | JsNum (x : f64) | JsStr (t : text)
| JsArr (l : list jsv) | JsObj (l : list (text * jsv)) | JsOther.

(** Array index keys of ECMAScript: canonical decimal below 2^32 - 1.
    How V8 orders the keys [get_own_property_names] returns, json.rs:86-88. *)
Definition array_index (k : text) : option N :=
  match parse_digits k with
  | Some n => if (n <? 4294967295)%N && text_eqb (show_N n) k then Some n else None
  | None => None
  end.

(** [v8::Object::set] on an ordinary object, own properties in the order V8 lists them
    (OrdinaryOwnPropertyKeys): index keys in ascending order, then the others in creation order.
    Setting [__proto__] calls the setter of Object.prototype and adds no own property.
    Part of [v8::Object::set], json.rs:26-34. *)
Fixpoint has_key (k : text) (l : list (text * jsv)) : bool :=
  match l with [] => false | (k', _) :: l' => text_eqb k' k || has_key k l' end.
(** Part of [v8::Object::set], json.rs:26-34. *)
Fixpoint replace_key (k : text) (v : jsv) (l : list (text * jsv)) : list (text * jsv) :=
  match l with
  | [] => []
  | (k', v') :: l' => if text_eqb k' k then (k', v) :: l' else (k', v') :: replace_key k v l'
  end.
(** Part of [v8::Object::set], json.rs:26-34. *)
Fixpoint insert_index (n : N) (k : text) (v : jsv) (l : list (text * jsv)) : list (text * jsv) :=
  match l with
  | [] => [(k, v)]
  | (k', v') :: l' =>
      match array_index k' with
      | Some n' => if (n' <? n)%N then (k', v') :: insert_index n k v l' else (k, v) :: l
      | None => (k, v) :: l
      end
  end.
(** [v8::Object::set], json.rs:26-34. *)
Definition js_set (l : list (text * jsv)) (k : text) (v : jsv) : list (text * jsv) :=
  if text_eqb k (lit "__proto__") then l
  else if has_key k l then replace_key k v l
  else match array_index k with
       | Some n => insert_index n k v l
       | None => l ++ [(k, v)]
       end.

(** [json_to_js] of [Some v], json.rs:8-38. *)
Fixpoint json_to_js (v : value) : jsv :=
  match v with
  | VNull => JsNull
  | VBool b => JsBool b
  | VNum x => JsNum x
  | VStr t => JsStr t
  | VArr l => JsArr (map json_to_js l)
  | VObj l => JsObj (fold_left (fun acc kv => js_set acc (fst kv) (snd kv))
                       (map (fun kv => (fst kv, json_to_js (snd kv))) l) [])
  end.
(** json.rs:8-38. *)
Definition opt_to_js (v : option value) : jsv :=
  match v with Some v => json_to_js v | None => JsUndef end.

(** [js_to_json], json.rs:43-104: [None] for undefined and unknown kinds; the [unwrap] at 79 and
    97 panics on such an element. *)
Fixpoint js_to_json (v : jsv) : res unit (option value) :=
  match v with
  | JsUndef | JsOther => Ok None
  | JsNull => Ok (Some VNull)
  | JsBool b => Ok (Some (VBool b))
  | JsNum x => Ok (Some (VNum x))
  | JsStr t => Ok (Some (VStr t))
  | JsArr l =>
      let? vs := map_res (fun x => match js_to_json x with
                                   | Ok (Some y) => Ok y
                                   | Ok None => Panic Pn_plugin
                                   | Err e => Err e | Panic p => Panic p | OutOfFuel => OutOfFuel
                                   end) l in
      Ok (Some (VArr vs))
  | JsObj l =>
      let? vs := map_res (fun kx => match js_to_json (snd kx) with
                                    | Ok (Some y) => Ok (fst kx, y)
                                    | Ok None => Panic Pn_plugin
                                    | Err e => Err e | Panic p => Panic p | OutOfFuel => OutOfFuel
                                    end) l in
      Ok (Some (VObj vs))
  end.

(** The JavaScript side of a call: a program that reads variables ([STUART.get]), sets them
    ([STUART.set]) and finally returns; the result as a string, [None] for undefined or an
    exception (js/mod.rs:210-216).  JavaScript that does not terminate is not modelled. *)
Inductive js_prog :=
| JsReturn (r : option text)
| JsGet (name : text) (k : jsv -> js_prog)
| JsSet (name : text) (v : jsv) (p : js_prog).
(** From the arguments of a call. The function called at js/mod.rs:204-221. *)
Definition js_code := list jsv -> js_prog.

(** [get_variable], context.rs:76-87, and [set_variable], context.rs:50-73: an undefined value is refused
    with a warning. *)
Fixpoint js_run (p : js_prog) (s : scope) : res (traceback process_error) (scope * option text) :=
  match p with
  | JsReturn r => Ok (s, r)
  | JsGet n k => js_run (k (opt_to_js (get_variable n (sc_stack s)))) s
  | JsSet n v p' =>
      match js_to_json v with
      | Ok None => js_run p' s
      | Ok (Some y) =>
          match sc_stack s with
          | fr :: rest => js_run p' (set_stack (add_var n y fr :: rest) s)
          | [] => Panic Pn_last_mut
          end
      | Err _ => OutOfFuel                (* not possible *)
      | Panic q => Panic q
      | OutOfFuel => OutOfFuel
      end
  end.

(** Evaluation of the arguments, js/mod.rs:189-203. *)
Definition js_arg (l : loc) (s : scope) (a : rawarg) : res (traceback process_error) jsv :=
  match a with
  | AVar n => match get_variable n (sc_stack s) with
              | Some v => Ok (json_to_js v)
              | None => Err (tb l (XE_UndefinedVariable n))
              end
  | AStr t => Ok (JsStr t)
  | AInt z => Ok (JsNum (FFin z 0))
  | AIdent _ => Err (tb l XE_StackError)
  end.

(** [JSFunction::execute], js/mod.rs:179-221. *)
Definition js_exec (code : js_code) (args : list rawarg) (l : loc) (s : scope)
  : res (traceback process_error) scope :=
  let? vs := map_res (js_arg l s) args in
  let? sr := js_run (code vs) s in
  match snd sr with
  | None => Ok (fst sr)
  | Some t => match output (enc t) (fst sr) with Ok s2 => Ok s2 | _ => Panic Pn_plugin end
  end.

(** [JSFunctionParser::parse] and [JSFunction::name] (which is [todo!()]), js/mod.rs:160-177. *)
Definition js_plugin_parser (name : text) (code : js_code) : plugin_parser :=
  {| pp_name := name;
     pp_parse := fun r => inr {| pf_name := None; pf_exec := js_exec code (rf_pos r); pf_call := None |} |}.
