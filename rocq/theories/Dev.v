(** Dev.v -- [stuart dev] (stuart/src/serve/mod.rs) and the error reports (stuart/src/error.rs).
    Sockets, threads and the notify crate are outside the model: what is modelled is what the
    watcher loop does with the events it receives, the broadcast, and the served bytes. *)

From Coq Require Import String List NArith ZArith Bool.
From Verif Require Import Text Utf8 Json Base Syntax Parse Tree Interp Build Disk Cli.
Import ListNotations.

(** [Path::starts_with("dist")] / [ends_with] on a path relative to the project, component wise:
    serve/mod.rs:101 and 107. *)
Definition first_is (n : text) (p : path) : bool :=
  match p with c :: _ => text_eqb c n | [] => false end.
(** [Path::ends_with] with one component, serve/mod.rs:107. *)
Definition last_is (n : text) (p : path) : bool :=
  match rev p with c :: _ => text_eqb c n | [] => false end.

(** What the loop does with an event, serve/mod.rs:99-123. *)
Definition ignored_event (p : path) : bool := first_is (lit "dist") p || first_is (lit "temp") p.
(** serve/mod.rs:99-123. *)
Definition rebuilds (p : path) : bool :=
  negb (ignored_event p) && negb (last_is (lit "stuart.toml") p).

(** The watcher as a transition system over an arbitrary type [Src] of source states.
    - [dv_pub] is the source state the published site was last built from ([None]: no build has
      succeeded);
    - an event is the path it is about and whether it comes from the program itself (a build)
      rather than from the user, which the program cannot see;
    - [dv_late] are the events of changes made but not yet delivered to the channel.
    Simplifications: a build reads its whole input at the instant it starts and its own changes
    are on their way from then on (the real ones are spread over the build); events are delivered in
    order; an event without a path ([unwrap] at line 99) does not occur. *)
Section Watcher.
Context {Src : Type}.
(** What [ctx.build()] returns, serve/mod.rs:62 and 123; a panic ends the program. *)
Inductive outcome := Built | Failed | Died.
(** Where [serve] and [build_watcher] are: in the first build (serve/mod.rs:62-64), waiting
    for an event (98), in a build (123), about to empty the channel (143), or gone. *)
Inductive phase := Booting (snapshot : Src) | Idle | Building (snapshot : Src) | Draining | Dead.
(** The variables of serve/mod.rs:40-146. *)
Record dev := Dev {
  dv_src : Src;
  dv_late : list (bool * path); dv_queue : list (bool * path);
  dv_phase : phase; dv_pub : option Src
}.
(** The state when [serve] starts its first build. serve/mod.rs:62. *)
Definition dev_init (s : Src) : dev := Dev s [] [] (Booting s) None.

(** What a step is: the user changes the file at this path, the program starts a build because of
    an event of its own or not, or anything else. The events of serve/mod.rs:62-146. *)
Inductive label := LEdit (p : path) | LBuild (own : bool) | LOther.

(** The events of a change by the user: none before the watcher is set up (serve/mod.rs:72-74). *)
Definition edit_events (ph : phase) (p : path) : list (bool * path) :=
  match ph with Booting _ => [] | _ => [(false, p)] end.
(** The end of a build from [snap]: the phase after it and the published state.
    serve/mod.rs:62-64,111-123. *)
Definition after_build (result : Src -> outcome) (snap : Src) (next : phase) (pub : option Src) : phase * option Src :=
  match result snap with
  | Built => (next, Some snap)
  | Failed => (next, pub)
  | Died => (Dead, pub)
  end.

(** One step; [result s] is the outcome of building the state [s] and [own s] are the paths,
    relative to the project, about which that build causes events. serve/mod.rs:62-146. *)
Inductive dev_step (result : Src -> outcome) (own : Src -> list path) : label -> dev -> dev -> Prop :=
(* the user changes something, at any time *)
| step_edit s l q ph pub s' p :
    dev_step result own (LEdit p) (Dev s l q ph pub) (Dev s' (l ++ edit_events ph p) q ph pub)
(* an event arrives in the channel *)
| step_deliver s e l q ph pub :
    dev_step result own LOther (Dev s (e :: l) q ph pub) (Dev s l (q ++ [e]) ph pub)
(* the first build ends: serve/mod.rs:62-64, 72-84 *)
| step_boot s l q snap pub ph pub' : after_build result snap Idle pub = (ph, pub') ->
    dev_step result own LOther (Dev s l q (Booting snap) pub) (Dev s l q ph pub')
(* [recv] of an event that is passed over: serve/mod.rs:98-113 *)
| step_ignore s l o p q pub : rebuilds p = false ->
    dev_step result own LOther (Dev s l ((o, p) :: q) Idle pub) (Dev s l q Idle pub)
(* [recv] of an event that starts a build: serve/mod.rs:115-123 *)
| step_start s l o p q pub : rebuilds p = true ->
    dev_step result own (LBuild o) (Dev s l ((o, p) :: q) Idle pub)
      (Dev s (l ++ map (pair true) (own s)) q (Building s) pub)
(* the build ends: serve/mod.rs:123-139 *)
| step_finish s l q snap pub ph pub' : after_build result snap Draining pub = (ph, pub') ->
    dev_step result own LOther (Dev s l q (Building snap) pub) (Dev s l q ph pub')
(* what is in the channel is thrown away: serve/mod.rs:143 *)
| step_drain s l q pub :
    dev_step result own LOther (Dev s l q Draining pub) (Dev s l [] Idle pub).
End Watcher.
Arguments dev : clear implicits.
Arguments phase : clear implicits.

(** The paths of the calls by which a build without scripts changes the disk, in order:
    build.rs:151-158 (see [cli_build]).  Events of a build are about these paths or ones below. *)
Definition build_paths (m : machine) (c : context) (d : ent) : list path :=
  match build_and_merge m c d with
  | (st, Ok _) =>
      (cx_dir c ++ [lit "temp"]) ::
      match st_output st with
      | Some out =>
          match save_ops (st_config st) (join_path (cx_dir c) (cx_output c)) out with
          | Some ops => map op_path ops
          | None => []
          end
      | None => []
      end ++ (if cf_meta (st_config st) then [cx_dir c ++ [lit "metadata.json"]] else [])
  | _ => []
  end.

(** [Vec::swap_remove]: the element at [i] is replaced by the last one.
    Used at serve/mod.rs:138. *)
Definition swap_remove {A} (i : nat) (l : list A) : list A :=
  match rev l with
  | [] => l
  | x :: r =>
      let l' := rev r in
      if Nat.eqb i (length l') then l' else firstn i l' ++ x :: skipn (S i) l'
  end.

(** The broadcast, serve/mod.rs:126-138: indices of the streams whose send failed, in increasing
    order, then removed from the last to the first. *)
Fixpoint failing {A} (fails : A -> bool) (i : nat) (l : list A) : list nat :=
  match l with
  | [] => []
  | x :: l' => if fails x then i :: failing fails (S i) l' else failing fails (S i) l'
  end.
(** serve/mod.rs:126-138. *)
Definition broadcast {A} (fails : A -> bool) (l : list A) : list A :=
  fold_left (fun acc i => swap_remove i acc) (rev (failing fails 0 l)) l.

(** [buf.windows(7).position(|w| w == b"</body>")], serve/mod.rs:173: windows of the length of
    the needle. *)
Fixpoint find_window (needle : bytes) (i : nat) (b : bytes) : option nat :=
  if starts_with needle b then Some i
  else match b with [] => None | _ :: b' => find_window needle (S i) b' end.
(** The constant of serve/mod.rs:173. *)
Definition body_close : bytes := lit "</body>".
(** serve/mod.rs:173-177. *)
Definition script_open : bytes := lit "<script>".
(** serve/mod.rs:173-177. *)
Definition script_close : bytes := lit "</script>".
(** The body of the response for a located file, serve/mod.rs:171-180; [js] is [JS]. *)
Definition inject (js : bytes) (b : bytes) : bytes :=
  match find_window body_close 0 b with
  | Some i => firstn i b ++ (script_open ++ js ++ script_close) ++ skipn i b
  | None => b
  end.

(** Error reports: [StuartError for TracebackError], error.rs:84-168, without colours.
    [contents] is the file if it can be read as UTF-8, [msg] the lines printed for the kind,
    [help] its help.  [checked] tells whether the program was compiled with overflow checks
    (debug profile): [self.line as usize - 1] at line 0 panics then, and wraps to the largest
    [usize] otherwise. *)
Definition preview (checked : bool) (line : N) (contents : option text) : res unit (option text) :=
  match contents with
  | None => Ok None
  | Some s =>
      if N.eqb line 0 then (if checked then Panic Pn_line else Ok None)
      else Ok (nth_error (lines s) (N.to_nat (line - 1)))
  end.
(** [" ".repeat(n)], and the caret offset [(column as i32 - 2).clamp(0, MAX)], error.rs:136
    (columns below 2^31). *)
Definition spaces (n : nat) : text := repeat c_space n.
(** error.rs:136. *)
Definition caret_offset (col : N) : nat := N.to_nat (col - 2).
(** error.rs:84-168. *)
Definition report (checked : bool) (file : text) (line col : N) (msg : list text)
    (help : option text) (contents : option text) : res unit (list text) :=
  let? pv := preview checked line contents in
  let where_ := file ++ [c_colon] ++ show_N line ++ [c_colon] ++ show_N col in
  let w := length (show_N line) in
  Ok (msg ++
    match pv with
    | Some l =>
        [lit "  --> " ++ where_;
         spaces (S w) ++ lit "|";
         show_N line ++ lit " | " ++ l;
         spaces (S w) ++ lit "| " ++ spaces (caret_offset col) ++ lit "^^^ error occurred here";
         spaces (S w) ++ lit "|"]
        ++ match help with Some h => [spaces (S w) ++ lit "= help: " ++ h] | None => [] end
    | None =>
        (lit "  at " ++ where_) :: match help with Some h => [lit "  help: " ++ h] | None => [] end
    end).
