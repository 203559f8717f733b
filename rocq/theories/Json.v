(** Json.v -- [humphrey_json::Value] as used by Stuart, and field access
    (stuart-core/src/process/stack.rs).

    [humphrey_json] is a dependency and not part of /repo; what is assumed about it is exactly
    the definitions of this file: the shape of [Value], [Value::get] with a string (first
    matching key of an object, nothing otherwise) or a [usize] (element of an array, nothing
    otherwise), and indexed assignment [v["k"] = x] on an object (replace the first matching
    key, else append).  JSON parsing and serialisation are oracles. *)

From Coq Require Import String List NArith ZArith Bool.
From Verif Require Import Text.
Import ListNotations.

(** An [f64]: NaN, an infinity, or the exact finite value [m * 2^e].  (A superset of the real
    floats: no bound on [m] and [e]; -0.0 and 0.0 are identified, they cast alike.)
    The number of a [Value], functions/mod.rs:104. *)
Inductive f64 := FNan | FInf (neg : bool) | FFin (m e : Z).

(** Bounds of the cast of functions/mod.rs:104. *)
Definition i32_min : Z := -2147483648.
(** Bounds of the cast of functions/mod.rs:104. *)
Definition i32_max : Z := 2147483647.

(** [x as i32] (functions/mod.rs:104): truncation toward zero, saturating, NaN to 0. *)
Definition f64_trunc (m e : Z) : Z :=
  if (0 <=? e)%Z then (m * 2 ^ e)%Z else Z.quot m (2 ^ (- e)).
(** The saturation of the cast, functions/mod.rs:104. *)
Definition saturate (z : Z) : Z :=
  if (z <? i32_min)%Z then i32_min else if (i32_max <? z)%Z then i32_max else z.
(** The cast [x as i32], functions/mod.rs:104. *)
Definition f64_as_i32 (f : f64) : Z :=
  match f with
  | FNan => 0%Z
  | FInf true => i32_min
  | FInf false => i32_max
  | FFin m e => saturate (f64_trunc m e)
  end.

(** [humphrey_json::Value]; objects are association lists in file order.
    As matched at process/mod.rs:293-316 and functions/mod.rs:100-109. *)
Inductive value :=
| VNull
| VBool (b : bool)
| VNum (f : f64)
| VStr (s : text)
| VArr (l : list value)
| VObj (l : list (text * value)).

(** First binding of a name in a list of pairs: the [find] of [Value::get] and of
    [StackFrame::get_variable] (process/stack.rs:40-45). *)
Fixpoint assoc {A} (k : text) (l : list (text * A)) : option A :=
  match l with
  | [] => None
  | (k', v) :: l' => if text_eqb k' k then Some v else assoc k l'
  end.

(** [Value::get(&str)]. Used at process/stack.rs:53. *)
Definition get_key (k : text) (v : value) : option value :=
  match v with VObj l => assoc k l | _ => None end.
(** [slice::get(usize)]. Used by [Value::get(usize)], process/stack.rs:58. *)
Fixpoint nth_N {A} (n : N) (l : list A) : option A :=
  match l with
  | [] => None
  | x :: l' => if (n =? 0)%N then Some x else nth_N (n - 1)%N l'
  end.
(** [Value::get(usize)]. Used at process/stack.rs:58. *)
Definition get_idx (i : N) (v : value) : option value :=
  match v with VArr l => nth_N i l | _ => None end.

(** [Value::as_str], [Value::as_array].
    Used at for.rs:178,202,212, excerpt.rs:53, timetoread.rs:47, dateformat.rs:58. *)
Definition as_str (v : value) : option text := match v with VStr s => Some s | _ => None end.
(** for.rs:178,202. *)
Definition as_array (v : value) : option (list value) := match v with VArr l => Some l | _ => None end.

(** One step of process/stack.rs:52-64. *)
Definition get_step (k : text) (v : value) : option value :=
  match get_key k v with
  | Some v' => Some v'
  | None => match parse_usize k with Some i => get_idx i v | None => None end
  end.

(** [get_value], process/stack.rs:49-67. *)
Fixpoint get_value (idx : list text) (v : value) : value :=
  match idx with
  | [] => v
  | k :: idx' => match get_step k v with Some v' => get_value idx' v' | None => VNull end
  end.

(** [v[key] = x] on an object (fs/mod.rs:285,414,417; parse/markdown.rs:109-110). *)
Fixpoint set_key (k : text) (x : value) (l : list (text * value)) : list (text * value) :=
  match l with
  | [] => [(k, x)]
  | (k', v) :: l' => if text_eqb k' k then (k', x) :: l' else (k', v) :: set_key k x l'
  end.
