(** Build.v -- processing of nodes (process/mod.rs:52-271) and the builder (lib.rs). *)

From Coq Require Import String List NArith ZArith Bool.
From Verif Require Import Text Utf8 Json Base Syntax Parse Tree Interp.
Import ListNotations.

(** [Config], config.rs:5-16. *)
Record config := Config {
  cf_name : text; cf_author : option text;
  cf_strip : bool; cf_data : bool; cf_meta : bool
}.
(** [Config::default], config.rs:18-28. *)
Definition config_default : config := Config [] None true false false.

(** The fields of [Stuart] (lib.rs:53-66) that processing reads. *)
Record processor := Processor {
  pr_host : host;
  pr_input : option node;
  pr_base : option frame;
  pr_meta : bool                   (* config.save_metadata *)
}.

(** A token loop over [toks] started with the given stack and sections.
    E.g. process/mod.rs:101-113,231-243. *)
Definition phase (pr : processor) (toks : list ltoken) (st : list frame) (secs : list (text * bytes))
  : xres scope :=
  match pr_input pr with
  | None => Panic Pn_no_input
  | Some n => run (World (pr_host pr) n toks) (Scope O st secs)
  end.

(** The test [frame.name == "base"], process/mod.rs:118,189,246. *)
Definition is_base (f : frame) : bool := text_eqb (fr_name f) (lit "base").

(** The common part of [process_html] and [process_markdown]: process/mod.rs:101-139 and
    165-207: the page (or md.html) tokens, the check that the base frame is on top, the root
    tokens, the output of the top frame. *)
Definition two_phases (pr : processor) (src : path) (toks root : list ltoken) (first base : frame)
  : xres bytes :=
  let? s := phase pr toks [first] [] in
  match sc_stack s with
  | f :: r =>
      if is_base f then
        let? s2 := phase pr root (base :: r) (sc_secs s) in
        match sc_stack s2 with
        | f2 :: _ => Ok (fr_out f2)
        | [] => Panic Pn_pop
        end
      else Err (TB src 0 0 XE_StackError)
  | [] => Err (TB src 0 0 XE_StackError)
  end.

(** [Node::process_html], process/mod.rs:88-142. *)
Definition process_html (pr : processor) (e : env) (src : path) (toks : list ltoken)
  : xres process_output :=
  let? root := ok_or (ev_root e) (TB src 0 0 XE_MissingHtmlRoot) in
  match pr_base pr with
  | None => Panic Pn_no_base
  | Some b =>
      let? out := two_phases pr src toks root b b in
      Ok (POut (Some out) None)
  end.

(** [Node::process_markdown], process/mod.rs:145-215. *)
Definition process_markdown (pr : processor) (e : env) (src : path) (name : text) (m : markdown)
  : xres process_output :=
  let? root := ok_or (ev_root e) (TB src 0 0 XE_MissingHtmlRoot) in
  let? mdt := ok_or (ev_md e) (TB src 0 0 XE_MissingMarkdownRoot) in
  match pr_base pr with
  | None => Panic Pn_no_base
  | Some b =>
      let? v := md_to_value m in
      let? out := two_phases pr src mdt root (add_var (lit "self") v b) b in
      match strip_suffix (lit ".md") name with
      | None => Panic Pn_strip_md
      | Some stem => Ok (POut (Some out) (Some (stem ++ lit ".html")))
      end
  end.

(** Names of the template files, process/mod.rs:55, fs/mod.rs:356-357. *)
Definition is_template_name (n : text) : bool :=
  text_eqb n (lit "root.html") || text_eqb n (lit "md.html").

(** [Node::process] on a file, process/mod.rs:54-85. *)
Definition process_file (pr : processor) (e : env) (name : text) (contents : bytes) (pc : parsed)
    (src : path) : res error node :=
  let? out :=
    (if is_template_name name then Ok (POut None None)
     else
       match pc with
       | PHtml toks => map_err E_Process (process_html pr e src toks)
       | PMarkdown m => map_err E_Process (process_markdown pr e src name m)
       | PCustom c => match np_process c e with inr o => Ok o | inl err => Err (E_Plugin err) end
       | _ => Ok (POut None None)
       end) in
  Ok (NFile (match po_name out with Some n => n | None => name end)
            (match po_contents out with Some b => b | None => contents end)
            PNone
            (if pr_meta pr then parsed_to_json pc else None)
            src).

(** One child in [Environment::update_from_children], lib.rs:256-272. *)
Definition env_child (e : env) (n : node) : env :=
  let toks := match n_parsed n with PHtml t => Some t | _ => None end in
  if text_eqb (n_name n) (lit "root.html") then Env (ev_vars e) toks (ev_md e)
  else if text_eqb (n_name n) (lit "md.html") then Env (ev_vars e) (ev_root e) toks
  else e.
(** [Environment::update_from_children], lib.rs:253-275. *)
Definition env_update (e : env) (ch : list node) : env := fold_left env_child ch e.

(** [Stuart::build_node], lib.rs:208-229. *)
Fixpoint build_node (pr : processor) (e : env) (n : node) : res error node :=
  match n with
  | NDir name ch src =>
      let e' := env_update e ch in
      let? ch' := map_res (build_node pr e') ch in
      Ok (NDir name ch' src)
  | NFile name b pc _ src => process_file pr e name b pc src
  end.

(** [Node::preprocess_markdown], process/mod.rs:220-270: the new parsed contents. *)
Definition preprocess_markdown (pr : processor) (src : path) (m : markdown) : xres markdown :=
  match pr_base pr with
  | None => Panic Pn_no_base
  | Some b =>
      let? s := phase pr (md_tokens m) [b] [] in
      match sc_stack s with
      | f :: _ =>
          if is_base f then
            match from_utf8 (fr_out f) with
            | None => Err (TB src 0 0 XE_StackError)
            | Some t => Ok (Markdown (md_front m) (md_tokens m) (md_string m)
                                     (Some (h_md (pr_host pr) t)))
            end
          else Err (TB src 0 0 XE_StackError)
      | [] => Err (TB src 0 0 XE_StackError)
      end
  end.

(** [Stuart::preprocess_markdown_node], lib.rs:233-248 (the tree is updated in place; on an error
    the caller drops it). *)
Fixpoint preprocess (pr : processor) (n : node) : res error node :=
  match n with
  | NDir name ch src => let? ch' := map_res (preprocess pr) ch in Ok (NDir name ch' src)
  | NFile name b (PMarkdown m) meta src =>
      let? m' := map_err E_Process (preprocess_markdown pr src m) in
      Ok (NFile name b (PMarkdown m') meta src)
  | NFile _ _ _ _ _ => Ok n
  end.

(** [Stuart], lib.rs:53-66; the content directory is an argument of [build]. *)
Record stuart := Stuart {
  st_input : option node; st_output : option node;
  st_config : config; st_base : option frame; st_plugins : list plugin
}.
(** [Stuart::new] with [with_config] and [with_plugins], lib.rs:81-123; no manager is the empty
    list of plugins. *)
Definition stuart_new (c : config) (ps : list plugin) : stuart := Stuart None None c None ps.

(** The variables of a build, lib.rs:138-142. *)
Definition build_vars (osenv : list (text * text)) (mode : text) : list (text * text) :=
  osenv ++ [(lit "STUART_ENV", mode)].
(** The base frame, lib.rs:144-151. *)
Definition base_frame (vars : list (text * text)) : frame :=
  add_var (lit "env") (VObj (map (fun kv => (fst kv, VStr (snd kv))) vars)) (new_frame (lit "base")).

(** The content directory as found on disk: canonical path, its last component, the entry.
    [root.canonicalize()] and [dir.file_name()], fs/mod.rs:53,188. *)
Record source_dir := SourceDir { sd_path : path; sd_name : text; sd_ent : option ent }.

(** The part of [Stuart::build] after loading, lib.rs:132-167, as a function of the loaded tree:
    the preprocessed input, and the output. *)
Definition build_tree (h : host) (meta : bool) (vars : list (text * text)) (input : node)
  : res error (node * node) :=
  let base := base_frame vars in
  let? input' := preprocess (Processor h (Some input) (Some base) meta) input in
  match n_children input' with
  | None => Panic Pn_children
  | Some ch =>
      let e := env_update (Env vars None None) ch in
      let? out := build_node (Processor h (Some input') (Some base) meta) e input' in
      Ok (input', out)
  end.

(** [Stuart::build], lib.rs:126-168: the new state of the builder and the result. *)
Definition build (h : host) (osenv : list (text * text)) (mode : text) (d : source_dir) (st : stuart)
  : stuart * res error unit :=
  match node_new h (st_plugins st) true (sd_path d) (sd_name d) (sd_ent d) with
  | Ok input =>
      let vars := build_vars osenv mode in
      let base := base_frame vars in
      let st1 := Stuart (Some input) (st_output st) (st_config st) (Some base) (st_plugins st) in
      match preprocess (Processor h (Some input) (Some base) (cf_meta (st_config st))) input with
      | Ok input' =>
          let st2 := Stuart (Some input') (st_output st) (st_config st) (Some base) (st_plugins st) in
          match build_tree h (cf_meta (st_config st)) vars input with
          | Ok (_, out) =>
              (Stuart (Some input') (Some out) (st_config st) (Some base) (st_plugins st), Ok tt)
          | Err e => (st2, Err e)
          | Panic p => (st2, Panic p)
          | OutOfFuel => (st2, OutOfFuel)
          end
      | Err e => (st1, Err e)
      | Panic p => (st1, Panic p)
      | OutOfFuel => (st1, OutOfFuel)
      end
  | Err e => (st, Err e)
  | Panic p => (st, Panic p)
  | OutOfFuel => (st, OutOfFuel)
  end.

(** [Stuart::merge_output], lib.rs:173-178. *)
Definition merge_output (n : node) (st : stuart) : stuart * res error unit :=
  match st_output st with
  | None => (st, Err E_NotBuilt)
  | Some out =>
      let (out', o) := merge out n in
      (Stuart (st_input st) (Some out') (st_config st) (st_base st) (st_plugins st),
       match o with Done => Ok tt | Failed e => Err e | Panicked p => Panic p end)
  end.

(** What [Stuart::save_metadata] writes, lib.rs:190-205 and fs/mod.rs:284-290, before
    serialisation: [{"name": .., "author": .., "data": ..}]; an absent author is [null]. *)
Definition metadata_value (st : stuart) : res error value :=
  if negb (cf_meta (st_config st)) then Err E_MetadataNotEnabled
  else
    match st_output st with
    | None => Err E_NotBuilt
    | Some out =>
        let? d := metadata_recur true out in
        Ok (VObj [(lit "name", VStr (cf_name (st_config st)));
                  (lit "author", match cf_author (st_config st) with Some a => VStr a | None => VNull end);
                  (lit "data", d)])
    end.
