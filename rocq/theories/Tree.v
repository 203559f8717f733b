(** Tree.v -- the virtual file tree: fs/mod.rs, parse/contents.rs, plugins/mod.rs. *)

From Coq Require Import String List NArith ZArith Bool.
From Verif Require Import Text Utf8 Json Base Syntax Parse.
Import ListNotations.

(** External functions, universally quantified in every theorem:
    - [h_ext]: [char::is_alphanumeric] beyond ASCII;
    - [h_md]: [pulldown_cmark::html::push_html] on [Parser::new_ext(_, Options::all())]
      (process/mod.rs:255-257);
    - [h_date]: dateformat.rs:66-73, [None] when the crate feature [date] is off; the inner
      result is [None] when parsing or formatting fails (or panics: it is caught there);
    - [h_json]: [humphrey_json::from_str] (fs/mod.rs:218). *)
Record host := Host {
  h_ext : char -> bool;
  h_md : text -> text;
  h_date : option (text -> text -> option text);
  h_json : text -> option value
}.

(** [Environment], lib.rs:70-77. *)
Record env := Env {
  ev_vars : list (text * text);
  ev_root : option (list ltoken);
  ev_md : option (list ltoken)
}.

(** [ProcessOutput], process/mod.rs:45-50. *)
Record process_output := POut { po_contents : option bytes; po_name : option text }.

(** [dyn NodeProcessor], plugins/mod.rs:48-56: arbitrary functions of the environment (what it
    may read of the processor is constant during a build and so part of the closure). *)
Record node_processor := NodeProc {
  np_process : env -> text + process_output;
  np_json : value
}.

(** [ParsedContents], parse/contents.rs:14-27. *)
Inductive parsed :=
| PHtml (toks : list ltoken)
| PMarkdown (m : markdown)
| PJson (v : value)
| PCustom (c : node_processor)
| PNone
| PIgnored.

(** [dyn NodeParser] and [Plugin], plugins/mod.rs:25-45 ([version] is not used). *)
Record node_parser := NodeParser {
  npa_exts : list text;
  npa_parse : bytes -> path -> text + node_processor
}.
(** [Plugin], plugins/mod.rs:25-36. *)
Record plugin := Plugin {
  pl_name : text;
  pl_fns : list plugin_parser;
  pl_parsers : list node_parser
}.
(** The function table of a list of plugins (parse/mod.rs:256-258). *)
Definition fns (ps : list plugin) : fn_table := map (fun p => (pl_name p, pl_fns p)) ps.

(** [Node], fs/mod.rs:25-48. *)
Inductive node :=
| NFile (name : text) (contents : bytes) (p : parsed) (meta : option value) (src : path)
| NDir (name : text) (children : list node) (src : path).

(** fs/mod.rs:78-140. *)
Definition is_dir (n : node) : bool := match n with NDir _ _ _ => true | _ => false end.
(** fs/mod.rs:78-140. *)
Definition is_file (n : node) : bool := match n with NFile _ _ _ _ _ => true | _ => false end.
(** fs/mod.rs:78-140. *)
Definition n_name (n : node) : text :=
  match n with NFile nm _ _ _ _ => nm | NDir nm _ _ => nm end.
(** fs/mod.rs:78-140. *)
Definition n_children (n : node) : option (list node) :=
  match n with NDir _ ch _ => Some ch | _ => None end.
(** fs/mod.rs:78-140. *)
Definition n_contents (n : node) : option bytes :=
  match n with NFile _ b _ _ _ => Some b | _ => None end.
(** fs/mod.rs:78-140. *)
Definition n_parsed (n : node) : parsed :=
  match n with NFile _ _ p _ _ => p | NDir _ _ _ => PNone end.
(** fs/mod.rs:78-140. *)
Definition n_source (n : node) : path :=
  match n with NFile _ _ _ _ s => s | NDir _ _ s => s end.

(** [Path::components] on Unix for the string of a template path: [None] when a component is the
    root or [..] (then [get_at_path] returns [None], fs/mod.rs:157), otherwise the normal
    components; [.] and empty components disappear (fs/mod.rs:156). *)
Definition keep_component (t : text) : bool :=
  negb (text_eqb t []) && negb (text_eqb t [c_dot]).
(** Used at fs/mod.rs:146. *)
Definition components (t : text) : option (list text) :=
  if starts_with [c_slash] t then None
  else
    let (h, r) := split_char c_slash t in
    let l := filter keep_component (h :: r) in
    if existsb (fun c => text_eqb c [c_dot; c_dot]) l then None else Some l.

(** [children.iter().find(|n| n.name() == name)], fs/mod.rs:153. *)
Definition find_child (name : text) (l : list node) : option node :=
  find (fun n => text_eqb (n_name n) name) l.

(** The loop of [get_at_path], fs/mod.rs:143-162. *)
Fixpoint walk (n : node) (p : list text) : option node :=
  match p with
  | [] => Some n
  | c :: p' =>
      match n_children n with
      | None => None
      | Some l => match find_child c l with Some m => walk m p' | None => None end
      end
  end.
(** [Node::get_at_path], fs/mod.rs:143-162. *)
Definition get_at_path (n : node) (p : text) : option node :=
  match components p with Some l => walk n l | None => None end.

(** [Path::extension] of a file name: the part after the last dot, none if there is no dot or
    the only dot is the first character. Used at fs/mod.rs:205. *)
Definition extension (name : text) : option text :=
  let (after, before) := splitn2 c_dot (rev name) in
  match before with
  | None => None
  | Some [] => None
  | Some _ => Some (rev after)
  end.

(** First plugin parser for an extension, fs/mod.rs:230-241. *)
Definition find_node_parser (ext : text) (ps : list plugin) : option node_parser :=
  find (fun np => existsb (text_eqb ext) (npa_exts np)) (flat_map pl_parsers ps).

(** [Node::create_from_file], fs/mod.rs:195-258, for a readable file [b] at path [p] with name
    [name]. *)
Definition create_from_file (h : host) (ps : list plugin) (parse : bool) (p : path) (name : text)
    (b : bytes) : res error node :=
  let? pc :=
    (if parse then
      let s : res error text := ok_or (from_utf8 b) (E_Fs FE_Read) in
      match extension name with
      | Some e =>
          if text_eqb e (lit "html") then
            let? t := s in let? toks := map_err E_Parse (parse_html (h_ext h) (fns ps) p t) in
            Ok (PHtml toks)
          else if text_eqb e (lit "md") then
            let? t := s in let? m := map_err E_Parse (parse_markdown (h_ext h) (fns ps) p t) in
            Ok (PMarkdown m)
          else if text_eqb e (lit "json") then
            let? t := s in
            let? v := ok_or (h_json h t) (E_Parse (TB p 0 0 PE_InvalidJson)) in
            Ok (PJson v)
          else
            match find_node_parser e ps with
            | None => Ok PNone
            | Some np => match npa_parse np b p with inr c => Ok (PCustom c) | inl e => Err (E_Plugin e) end
            end
      | None => Ok PNone
      end
    else Ok PIgnored) in
  Ok (NFile name b pc None p).

(** What a directory entry is on disk: a regular file, a directory (entries in the order in which
    [read_dir] lists them), or anything else (special or unreadable).
    What [read_dir], [metadata] and [read] see, fs/mod.rs:165-202. *)
Inductive ent :=
| EFile (b : bytes)
| EDir (l : list (text * ent))
| EOther.

(** [Node::create_from_dir], fs/mod.rs:165-192, and the dispatch in it. *)
Fixpoint create_from (h : host) (ps : list plugin) (parse : bool) (p : path) (name : text) (e : ent)
  : res error node :=
  match e with
  | EFile b => create_from_file h ps parse p name b
  | EDir l =>
      let? ch := map_res (fun ne => create_from h ps parse (p ++ [fst ne]) (fst ne) (snd ne)) l in
      Ok (NDir name ch p)
  | EOther => Err (E_Fs FE_Read)
  end.

(** [Node::new] / [new_with_plugins], fs/mod.rs:52-75: [e] is the entry the root path
    canonicalises to ([None]: it does not exist), [p] that canonical path, [name] its last
    component.  A root that is not a directory fails in [read_dir]. *)
Definition node_new (h : host) (ps : list plugin) (parse : bool) (p : path) (name : text) (e : option ent)
  : res error node :=
  match e with
  | Some (EDir l) => create_from h ps parse p name (EDir l)
  | _ => Err (E_Fs (FE_NotFound p))
  end.

(** Result of an operation that updates a tree in place.
    For [&mut self] methods: [Node::merge], fs/mod.rs:294-329. *)
Inductive outcome := Done | Failed (e : error) | Panicked (p : panic).

(** [children.iter_mut().find(|child| child.name() == other_child.name())] followed by the update
    [f] of the child found, or [children.push(oc)], fs/mod.rs:304-322. *)
Definition update_first (oc : node) (f : node -> node * outcome) : list node -> list node * outcome :=
  fix go (l : list node) : list node * outcome :=
    match l with
    | [] => ([oc], Done)
    | c :: l' =>
        if text_eqb (n_name c) (n_name oc) then let (c', o) := f c in (c' :: l', o)
        else let (r, o) := go l' in (c :: r, o)
    end.

(** [Node::merge], fs/mod.rs:294-329.  The updated tree is returned also on failure. *)
Fixpoint merge (self other : node) {struct other} : node * outcome :=
  match self, other with
  | NDir n ch s, NDir _ och _ =>
      let fix go (ch : list node) (och : list node) : list node * outcome :=
        match och with
        | [] => (ch, Done)
        | oc :: och' =>
            match update_first oc
                    (fun c => if is_dir c && is_dir oc then merge c oc
                              else (c, Failed (E_Fs (FE_Conflict (n_source c) (n_source oc))))) ch with
            | (ch', Done) => go ch' och'
            | (ch', o) => (ch', o)
            end
        end in
      let (ch', o) := go ch och in (NDir n ch' s, o)
  | _, _ => (self, Panicked Pn_merge)
  end.

(** [ParsedContents::to_json], parse/contents.rs:52-70. *)
Definition parsed_to_json (p : parsed) : option value :=
  match p with
  | PHtml _ => None
  | PNone => None
  | PIgnored => None
  | PMarkdown m => Some (VObj [(lit "type", VStr (lit "markdown"));
                               (lit "value", VObj (front_value (md_front m)))])
  | PJson v => Some (VObj [(lit "type", VStr (lit "json")); (lit "value", v)])
  | PCustom c => Some (np_json c)
  end.

(** [Node::save_metadata_recur], fs/mod.rs:387-423. *)
Fixpoint metadata_recur (is_first : bool) (n : node) : res error value :=
  match n with
  | NDir name ch _ =>
      let? vs := map_res (metadata_recur false) ch in
      Ok (if is_first then VArr vs
          else VObj [(lit "type", VStr (lit "directory")); (lit "name", VStr name);
                     (lit "children", VArr vs)])
  | NFile name _ _ meta _ =>
      let base := [(lit "name", VStr name)] in
      match meta with
      | Some (VObj l) => Ok (VObj (fold_left (fun acc kv => set_key (fst kv) (snd kv) acc) l base))
      | Some _ => Panic Pn_meta_object
      | None => Ok (VObj (set_key (lit "type") (VStr (lit "file")) base))
      end
  end.
