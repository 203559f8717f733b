(** SpecJs.v -- JSON values that survive a journey through JavaScript (C56), and templates without
    conditionals (C57). *)

From Coq Require Import String List NArith ZArith Bool Permutation Sorted.
From Verif Require Import Text Utf8 Json Base Syntax Interp Js SpecChars SpecScope.
Import ListNotations.

(** Keys that JavaScript takes for array indices: numerals below 2^32 - 1 without leading zeros. *)
Definition index_of (k : text) (n : N) : Prop := (n < 4294967295)%N /\ SpecChars.numeral k n /\ canonical k.

(** Objects with different keys, none of them [__proto__], at all levels. *)
Inductive keyed : value -> Prop :=
| ky_null : keyed VNull
| ky_bool b : keyed (VBool b)
| ky_num x : keyed (VNum x)
| ky_str t : keyed (VStr t)
| ky_arr l : Forall keyed l -> keyed (VArr l)
| ky_obj l : NoDup (map fst l) -> ~ In (lit "__proto__") (map fst l) -> Forall (fun kv => keyed (snd kv)) l -> keyed (VObj l).

(** The order in which JavaScript lists keys: first the indices in ascending order. *)
Definition listed_as (ks : list text) : Prop := exists first ns rest,
  ks = first ++ rest /\ Forall2 index_of first ns /\ StronglySorted N.lt ns /\
  forall k n, In k rest -> ~ index_of k n.
Inductive in_order : value -> Prop :=
| io_null : in_order VNull
| io_bool b : in_order (VBool b)
| io_num x : in_order (VNum x)
| io_str t : in_order (VStr t)
| io_arr l : Forall in_order l -> in_order (VArr l)
| io_obj l : listed_as (map fst l) -> Forall (fun kv => in_order (snd kv)) l -> in_order (VObj l).

(** The same value up to the order of the members of objects. *)
Inductive same_members : value -> value -> Prop :=
| sm_null : same_members VNull VNull
| sm_bool b : same_members (VBool b) (VBool b)
| sm_num x : same_members (VNum x) (VNum x)
| sm_str t : same_members (VStr t) (VStr t)
| sm_arr l l' : Forall2 same_members l l' -> same_members (VArr l) (VArr l')
| sm_obj l m l' : Forall2 (fun a b => fst a = fst b /\ same_members (snd a) (snd b)) l m -> Permutation m l' -> same_members (VObj l) (VObj l').

(** ** What values become *)
(** [x] is the last thing bound to [k]. *)
Definition last_binding {A} (k : text) (l : list (text * A)) (x : A) : Prop :=
  exists l1 l2, l = l1 ++ (k, x) :: l2 /\ ~ In k (map fst l2).
(** [r] lists keys in the order in which [ks] mentions them first. *)
Definition by_first (ks r : list text) : Prop := forall a k b, r = a ++ k :: b ->
  exists before after, ks = before ++ k :: after /\ ~ In k before /\ forall j, In j b -> ~ In j before.
(** [l] lists the properties of an object that was given the members [p] one after another. *)
Definition object_of {A} (p l : list (text * A)) : Prop :=
  NoDup (map fst l) /\ (forall k x, In (k, x) l <-> k <> lit "__proto__" /\ last_binding k p x) /\
  exists first ns rest, map fst l = first ++ rest /\ Forall2 index_of first ns /\ StronglySorted N.lt ns /\
    (forall k n, In k rest -> ~ index_of k n) /\ by_first (map fst p) rest.
(** A JSON value as a JavaScript value. *)
Inductive becomes : value -> jsv -> Prop :=
| bc_null : becomes VNull JsNull
| bc_bool b : becomes (VBool b) (JsBool b)
| bc_num x : becomes (VNum x) (JsNum x)
| bc_str t : becomes (VStr t) (JsStr t)
| bc_arr l l' : Forall2 becomes l l' -> becomes (VArr l) (JsArr l')
| bc_obj l m l' : Forall2 (fun a b => fst a = fst b /\ becomes (snd a) (snd b)) l m -> object_of m l' -> becomes (VObj l) (JsObj l').
(** A JavaScript value as a JSON value. *)
Inductive read_as : jsv -> value -> Prop :=
| ra_null : read_as JsNull VNull
| ra_bool b : read_as (JsBool b) (VBool b)
| ra_num x : read_as (JsNum x) (VNum x)
| ra_str t : read_as (JsStr t) (VStr t)
| ra_arr l l' : Forall2 read_as l l' -> read_as (JsArr l) (VArr l')
| ra_obj l l' : Forall2 (fun a b => fst a = fst b /\ read_as (snd a) (snd b)) l l' -> read_as (JsObj l) (VObj l').

(** ** Arguments *)
(** What the function is given for an argument of the tag. *)
Inductive given (st : list frame) : rawarg -> jsv -> Prop :=
| gv_str t : given st (AStr t) (JsStr t)
| gv_int z : given st (AInt z) (JsNum (FFin z 0))
| gv_var h p v0 v j : ~ In c_dot h -> Forall (fun k => ~ In c_dot k) p -> visible h st v0 -> field v0 p v -> becomes v j ->
    given st (AVar (dotted h p)) j.
(** The argument is at fault. *)
Inductive faulty (st : list frame) : rawarg -> process_error -> Prop :=
| fy_ident t : faulty st (AIdent t) XE_StackError
| fy_var h p : ~ In c_dot h -> Forall (fun k => ~ In c_dot k) p -> Forall (fun f => ~ In h (map fst (fr_vars f))) st ->
    faulty st (AVar (dotted h p)) (XE_UndefinedVariable (dotted h p)).

(** ** Templates *)
Definition conditional (t : ltoken) : Prop :=
  match t_inner t with TFun (FIf _ _ _) | TFun (FIfDefined _) => True | _ => False end.
(** The same function under the name [n], or under none. *)
Definition called (n : option text) (p : plugin_fn) : plugin_fn := {| pf_name := n; pf_exec := pf_exec p; pf_call := pf_call p |}.
Definition call_all (n : option text) (t : ltoken) : ltoken :=
  match t_inner t with TFun (FPlugin p) => LTok (TFun (FPlugin (called n p))) (t_loc t) | _ => t end.
(** A function for examples. *)
Definition greet : plugin_fn := {| pf_name := Some (lit "greet"); pf_exec := fun l s => match output (enc (lit "hello")) s with Ok s1 => Ok s1 | Err e => Err (tb l e) | Panic q => Panic q | OutOfFuel => OutOfFuel end; pf_call := None |}.
