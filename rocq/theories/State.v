(** State.v -- plugins that keep state between the calls of their functions.  A JavaScript plugin is
    evaluated once, when it is loaded; its functions share the variables of its module, which live as long
    as the process (stuart/src/plugins/js/mod.rs:46-155,179-221).  The functions of Interp.v and Build.v
    again, with a state that only calls of plugin functions look at and change.  Node parsers of plugins
    ([np_process]) keep no state here: JavaScript plugins have none (js/mod.rs:153). *)

From Coq Require Import String List NArith ZArith Bool.
From Verif Require Import Text Utf8 Json Base Syntax Parse Tree Interp Build Js.
Import ListNotations.

(** A computation with a state; the rest of the process is as before.  The state is that of the contexts
    held by js/mod.rs:31,40. *)
Definition st (X A : Type) : Type := X -> X * A.
(** A value, with the state as it is; [Ok(...)], e.g. process/mod.rs:118. *)
Definition ret {X A} (a : A) : st X A := fun x => (x, a).
(** One statement after the other, e.g. process/mod.rs:111-118. *)
Definition bnd {X A B} (m : st X A) (f : A -> st X B) : st X B := fun x => let (x1, a) := m x in f a x1.
(** [?], e.g. process/mod.rs:112. *)
Definition sbind {X E A B} (m : st X (res E A)) (f : A -> st X (res E B)) : st X (res E B) :=
  bnd m (fun r => match r with
                  | Ok a => f a
                  | Err e => ret (Err e)
                  | Panic p => ret (Panic p)
                  | OutOfFuel => ret OutOfFuel
                  end).
(** Notation for [?], e.g. process/mod.rs:112. *)
Notation "'let!' x := m 'in' f" := (sbind m (fun x => f)) (at level 200, x pattern, m at level 100, f at level 200).
(** As [map_err], e.g. process/mod.rs:62. *)
Definition smap_err {X E F A} (g : E -> F) (m : st X (res E A)) : st X (res F A) := bnd m (fun r => ret (map_err g r)).
(** As [map_res]: the elements in turn, lib.rs:216-222,241-244. *)
Definition smap_res {X E A B} (f : A -> st X (res E B)) : list A -> st X (res E (list B)) :=
  fix go l :=
    match l with
    | [] => ret (Ok [])
    | a :: l' => let! b := f a in let! r := go l' in ret (Ok (b :: r))
    end.

(** What the functions of plugins do: [Function::execute], functions/mod.rs:77-83. *)
Definition behaviour (X : Type) : Type := plugin_fn -> loc -> scope -> st X (xres scope).

Section State.
  Context {X : Type}.
  Variable beh : behaviour X.

  (** [run_block], for.rs:243-249. *)
  Fixpoint srun_block (ex : ltoken -> scope -> st X (xres scope)) (w : world) (height : nat) (eof : tbe) (k : nat) (s : scope)
    : st X (xres scope) :=
    if Nat.leb (length (sc_stack s)) height then ret (Ok s)
    else
      match k with
      | O => ret OutOfFuel
      | S k' =>
          match next_token w s with
          | None => ret (Err eof)
          | Some (t, s1) => let! s2 := ex t s1 in srun_block ex w height eof k' s2
          end
      end.
  (** [run_cond], if.rs:69-88 and ifdefined.rs:54-73. *)
  Fixpoint srun_cond (ex : ltoken -> scope -> st X (xres scope)) (w : world) (height : nat) (eof : tbe) (k : nat) (condition : bool) (s : scope)
    : st X (xres scope) :=
    if Nat.leb (length (sc_stack s)) height then ret (Ok s)
    else
      match k with
      | O => ret OutOfFuel
      | S k' =>
          match next_token w s with
          | None => ret (Err eof)
          | Some (t, s1) =>
              let! nm := ret (token_fn_name t) in
              if condition
                 || ((is_name nm (lit "end") || is_name nm (lit "else"))
                     && Nat.eqb (length (sc_stack s1)) (S height))
              then
                let! s2 := ex t s1 in
                srun_cond ex w height eof k' (if is_name nm (lit "else") then negb condition else condition) s2
              else srun_cond ex w height eof k' condition s1
          end
      end.
  (** The loop over the selected values, for.rs:231-250. *)
  Fixpoint sfor_loop (ex : ltoken -> scope -> st X (xres scope)) (w : world) (name : text) (waypoint : nat)
      (eof : tbe) (vs : list value) (s : scope) : st X (xres scope) :=
    match vs with
    | [] => ret (Ok s)
    | v :: vs' =>
        let s1 := set_idx waypoint s in
        let h := length (sc_stack s1) in
        let s2 := push_frame (add_var name v (new_frame (lit "for:" ++ name))) s1 in
        let! s3 := srun_block ex w h eof (S (length (w_toks w))) s2 in
        sfor_loop ex w name waypoint eof vs' s3
    end.
  (** The current token's location, or a panic: [scope.tokens.current().unwrap()], e.g. for.rs:133. *)
  Definition swith_current {A} (w : world) (s : scope) (f : loc -> st X (xres A)) : st X (xres A) :=
    match current w s with None => ret (Panic Pn_current) | Some t => f (t_loc t) end.
  (** [Function::execute]; the functions that do not process further tokens are those of [exec_fn].
      functions/mod.rs:77-83, process/mod.rs:284. *)
  Definition sexec_fn (ex : ltoken -> scope -> st X (xres scope)) (w : world) (f : func) (s : scope) : st X (xres scope) :=
    match f with
    | FFor f =>                                                                (* for.rs:132-253 *)
        swith_current w s (fun l =>
          let! vs := ret (map_err (tb l) (for_values w f (sc_stack s))) in
          sfor_loop ex w (ff_var f) (sc_idx s) (tb l XE_UnexpectedEndOfFile) (select f vs) s)
    | FIfDefined v =>                                                          (* ifdefined.rs:41-76 *)
        swith_current w s (fun l =>
          let d := match get_variable v (sc_stack s) with
                   | Some VNull => false | Some _ => true | None => false
                   end in
          srun_cond ex w (length (sc_stack s)) (tb l XE_UnexpectedEndOfFile) (S (length (w_toks w))) d
            (push_frame (new_frame (lit "ifdefined:" ++ v)) s))
    | FIf c a b =>                                                             (* if.rs:46-91 *)
        swith_current w s (fun l =>
          let! x := ret (ok_or (eval_input a (sc_stack s)) (tb l (XE_UndefinedVariable (show_input a)))) in
          let! y := ret (ok_or (eval_input b (sc_stack s)) (tb l (XE_UndefinedVariable (show_input b)))) in
          srun_cond ex w (length (sc_stack s)) (tb l XE_UnexpectedEndOfFile) (S (length (w_toks w)))
            (cond c x y) (push_frame (new_frame (if_frame_name c a b)) s))
    | FPlugin p => swith_current w s (fun l => beh p l s)
    | _ => ret (exec_fn (fun _ _ => OutOfFuel) w f s)
    end.
  (** [LocatableToken::process], process/mod.rs:275-338. *)
  Fixpoint sexec (n : nat) (w : world) (t : ltoken) (s : scope) : st X (xres scope) :=
    match n with
    | O => ret OutOfFuel
    | S n' =>
        match t_inner t with
        | TRaw r => ret (emit (enc r) s)
        | TFun f => sexec_fn (sexec n' w) w f s
        | TVar v =>
            ret match var_string v (sc_stack s) with
                 | Ok x => emit (enc x) s
                 | Err e => Err (tb (t_loc t) e)
                 | Panic p => Panic p
                 | OutOfFuel => OutOfFuel
                 end
        end
    end.
  (** The loop over the tokens, process/mod.rs:111-113,134-136,182-184,205-207,241-243. *)
  Fixpoint srun_all (k : nat) (n : nat) (w : world) (s : scope) : st X (xres scope) :=
    match k with
    | O => ret OutOfFuel
    | S k' =>
        match next_token w s with
        | None => ret (Ok s)
        | Some (t, s1) => let! s2 := sexec n w t s1 in srun_all k' n w s2
        end
    end.
  (** process/mod.rs:111-113. *)
  Definition srun (w : world) (s : scope) : st X (xres scope) :=
    srun_all (S (length (w_toks w))) (S (length (w_toks w))) w s.

  (** [phase], process/mod.rs:101-139,165-207. *)
  Definition sphase (pr : processor) (toks : list ltoken) (sk : list frame) (secs : list (text * bytes)) : st X (xres scope) :=
    match pr_input pr with
    | None => ret (Panic Pn_no_input)
    | Some n => srun (World (pr_host pr) n toks) (Scope O sk secs)
    end.
  (** [two_phases], process/mod.rs:101-139,165-207. *)
  Definition stwo_phases (pr : processor) (src : path) (toks root : list ltoken) (first base : frame) : st X (xres bytes) :=
    let! s := sphase pr toks [first] [] in
    match sc_stack s with
    | f :: r =>
        if is_base f then
          let! s2 := sphase pr root (base :: r) (sc_secs s) in
          ret match sc_stack s2 with
               | f2 :: _ => Ok (fr_out f2)
               | [] => Panic Pn_pop
               end
        else ret (Err (TB src 0 0 XE_StackError))
    | [] => ret (Err (TB src 0 0 XE_StackError))
    end.
  (** [Node::process_html], process/mod.rs:88-142. *)
  Definition sprocess_html (pr : processor) (e : env) (src : path) (toks : list ltoken) : st X (xres process_output) :=
    let! root := ret (ok_or (ev_root e) (TB src 0 0 XE_MissingHtmlRoot)) in
    match pr_base pr with
    | None => ret (Panic Pn_no_base)
    | Some b =>
        let! out := stwo_phases pr src toks root b b in
        ret (Ok (POut (Some out) None))
    end.
  (** [Node::process_markdown], process/mod.rs:145-215. *)
  Definition sprocess_markdown (pr : processor) (e : env) (src : path) (name : text) (m : markdown) : st X (xres process_output) :=
    let! root := ret (ok_or (ev_root e) (TB src 0 0 XE_MissingHtmlRoot)) in
    let! mdt := ret (ok_or (ev_md e) (TB src 0 0 XE_MissingMarkdownRoot)) in
    match pr_base pr with
    | None => ret (Panic Pn_no_base)
    | Some b =>
        let! v := ret (md_to_value m) in
        let! out := stwo_phases pr src mdt root (add_var (lit "self") v b) b in
        ret match strip_suffix (lit ".md") name with
             | None => Panic Pn_strip_md
             | Some stem => Ok (POut (Some out) (Some (stem ++ lit ".html")))
             end
    end.
  (** [Node::process], process/mod.rs:54-85. *)
  Definition sprocess_file (pr : processor) (e : env) (name : text) (contents : bytes) (pc : parsed) (src : path)
    : st X (res error node) :=
    let! out :=
      (if is_template_name name then ret (Ok (POut None None))
       else
         match pc with
         | PHtml toks => smap_err E_Process (sprocess_html pr e src toks)
         | PMarkdown m => smap_err E_Process (sprocess_markdown pr e src name m)
         | PCustom c => ret match np_process c e with inr o => Ok o | inl err => Err (E_Plugin err) end
         | _ => ret (Ok (POut None None))
         end) in
    ret (Ok (NFile (match po_name out with Some n => n | None => name end)
               (match po_contents out with Some b => b | None => contents end)
               PNone
               (if pr_meta pr then parsed_to_json pc else None)
               src)).
  (** [Stuart::build_node], lib.rs:208-229. *)
  Fixpoint sbuild_node (pr : processor) (e : env) (n : node) : st X (res error node) :=
    match n with
    | NDir name ch src =>
        let e' := env_update e ch in
        let! ch' := smap_res (sbuild_node pr e') ch in
        ret (Ok (NDir name ch' src))
    | NFile name b pc _ src => sprocess_file pr e name b pc src
    end.
  (** [Node::preprocess_markdown], process/mod.rs:220-270. *)
  Definition spreprocess_markdown (pr : processor) (src : path) (m : markdown) : st X (xres markdown) :=
    match pr_base pr with
    | None => ret (Panic Pn_no_base)
    | Some b =>
        let! s := sphase pr (md_tokens m) [b] [] in
        ret match sc_stack s with
             | f :: _ =>
                 if is_base f then
                   match from_utf8 (fr_out f) with
                   | None => Err (TB src 0 0 XE_StackError)
                   | Some t => Ok (Markdown (md_front m) (md_tokens m) (md_string m)
                                            (Some (h_md (pr_host pr) t)))
                   end
                 else Err (TB src 0 0 XE_StackError)
             | [] => Err (TB src 0 0 XE_StackError)
             end
    end.
  (** [Stuart::preprocess_markdown_node], lib.rs:233-248. *)
  Fixpoint spreprocess (pr : processor) (n : node) : st X (res error node) :=
    match n with
    | NDir name ch src => let! ch' := smap_res (spreprocess pr) ch in ret (Ok (NDir name ch' src))
    | NFile name b (PMarkdown m) meta src =>
        let! m' := smap_err E_Process (spreprocess_markdown pr src m) in
        ret (Ok (NFile name b (PMarkdown m') meta src))
    | NFile _ _ _ _ _ => ret (Ok n)
    end.
  (** [Stuart::build], lib.rs:126-168: the builder afterwards and the result. *)
  Definition sbuild (h : host) (osenv : list (text * text)) (mode : text) (d : source_dir) (b : stuart)
    : st X (stuart * res error unit) :=
    match node_new h (st_plugins b) true (sd_path d) (sd_name d) (sd_ent d) with
    | Ok input =>
        let vars := build_vars osenv mode in
        let base := base_frame vars in
        let meta := cf_meta (st_config b) in
        let with_input i o := Stuart (Some i) o (st_config b) (Some base) (st_plugins b) in
        bnd (spreprocess (Processor h (Some input) (Some base) meta) input) (fun r =>
        match r with
        | Ok input' =>
            match n_children input' with
            | None => ret (with_input input' (st_output b), Panic Pn_children)
            | Some ch =>
                bnd (sbuild_node (Processor h (Some input') (Some base) meta) (env_update (Env vars None None) ch) input') (fun r2 =>
                match r2 with
                | Ok out => ret (with_input input' (Some out), Ok tt)
                | Err e => ret (with_input input' (st_output b), Err e)
                | Panic p => ret (with_input input' (st_output b), Panic p)
                | OutOfFuel => ret (with_input input' (st_output b), OutOfFuel)
                end)
            end
        | Err e => ret (with_input input (st_output b), Err e)
        | Panic p => ret (with_input input (st_output b), Panic p)
        | OutOfFuel => ret (with_input input (st_output b), OutOfFuel)
        end)
    | Err e => ret (b, Err e)
    | Panic p => ret (b, Panic p)
    | OutOfFuel => ret (b, OutOfFuel)
    end.
  (** One build after another with the same builder and the same plugins, as [stuart dev] does
      (serve.rs:147-180): the results in order. *)
  Fixpoint sbuilds (h : host) (osenv : list (text * text)) (mode : text) (ds : list source_dir) (b : stuart)
    : st X (list (stuart * res error unit)) :=
    match ds with
    | [] => ret []
    | d :: ds' =>
        bnd (sbuild h osenv mode d b) (fun r =>
        bnd (sbuilds h osenv mode ds' (fst r)) (fun rs => ret (r :: rs)))
    end.
End State.

(** ** JavaScript *)

(** The JavaScript side of a call, with what the module keeps: [Y] is what its variables may hold.
    As [js_prog]; js/mod.rs:179-221. *)
Inductive sjs_prog (Y : Type) :=
| SReturn (y : Y) (r : option text)
| SGet (name : text) (k : jsv -> sjs_prog Y)
| SSet (name : text) (v : jsv) (p : sjs_prog Y).
Arguments SReturn {Y}. Arguments SGet {Y}. Arguments SSet {Y}.
(** A function of a module: it sees the variables of the module and its arguments. js/mod.rs:204-221. *)
Definition sjs_code (Y : Type) : Type := Y -> list jsv -> sjs_prog Y.
(** [STUART.get] and [STUART.set] as in [js_run], context.rs:50-87. *)
Fixpoint sjs_run {Y} (p : sjs_prog Y) (s : scope) : res (traceback process_error) (scope * Y * option text) :=
  match p with
  | SReturn y r => Ok (s, y, r)
  | SGet n k => sjs_run (k (opt_to_js (get_variable n (sc_stack s)))) s
  | SSet n v p' =>
      match js_to_json v with
      | Ok None => sjs_run p' s
      | Ok (Some y) =>
          match sc_stack s with
          | fr :: rest => sjs_run p' (set_stack (add_var n y fr :: rest) s)
          | [] => Panic Pn_last_mut
          end
      | Err _ => OutOfFuel                (* not possible *)
      | Panic q => Panic q
      | OutOfFuel => OutOfFuel
      end
  end.
(** What the modules keep, by context, js/mod.rs:55-57. *)
Definition contexts (Y : Type) : Type := N -> Y.
(** [x] with [y] in the context [c]; js/mod.rs:208-216. *)
Definition keep {Y} (c : N) (y : Y) (x : contexts Y) : contexts Y := fun c' => if (c' =? c)%N then y else x c'.
(** [JSFunction::execute], js/mod.rs:179-221; [code] gives the functions [_stuart_...] of the global object
    of each context.  Functions of other plugins keep nothing.  After a panic the process is gone, and so
    is what the modules kept. *)
Definition js_behaviour {Y} (code : N -> text -> option (sjs_code Y)) : behaviour (contexts Y) := fun p l s x =>
  match pf_call p with
  | None => (x, pf_exec p l s)
  | Some c =>
      match map_res (js_arg l s) (pc_args c) with
      | Ok vs =>
          match code (pc_ctx c) (pc_name c) with
          | None => (x, Panic Pn_plugin)
          | Some f =>
              match sjs_run (f (x (pc_ctx c)) vs) s with
              | Ok (s1, y, r) =>
                  (keep (pc_ctx c) y x,
                   match r with
                   | None => Ok s1
                   | Some t => match output (enc t) s1 with Ok s2 => Ok s2 | _ => Panic Pn_plugin end
                   end)
              | Err e => (x, Err e)
              | Panic q => (x, Panic q)
              | OutOfFuel => (x, OutOfFuel)
              end
          end
      | Err e => (x, Err e)
      | Panic q => (x, Panic q)
      | OutOfFuel => (x, OutOfFuel)
      end
  end.
(** [JSFunctionParser], js/mod.rs:27-32,157-177: a parser of the plugin loaded into the context [c]. *)
Definition sjs_parser (c : N) (name : text) : plugin_parser :=
  {| pp_name := name;
     pp_parse := fun r => inr {| pf_name := None; pf_exec := fun _ _ => Panic Pn_plugin; pf_call := Some (PCall c name (rf_pos r)) |} |}.
(** A plugin as [load_js_plugin] makes it, js/mod.rs:140-154. *)
Definition sjs_plugin (c : N) (name : text) (fns : list text) : plugin := Plugin name (map (sjs_parser c) fns) [].
