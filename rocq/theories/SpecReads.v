(** SpecReads.v -- specification: which directories of sources can be read, and which file is to blame
    when one cannot (C83, C36). *)

From Coq Require Import String List NArith ZArith Bool.
From Verif Require Import Text Utf8 Json Base Syntax Parse Tree SpecChars SpecTemplate SpecLocation SpecMarkdown SpecGrammar
  SpecBreak SpecTree SpecSite.
Import ListNotations.

(** A template that is malformed, and the error: what is wrong with the first malformed tag, and where. *)
Definition malformed (ext : char -> bool) (plugins : list (text * list plugin_parser)) (file : path) (t : text)
    (x : traceback parse_error) : Prop :=
  exists a src seen left, t = a ++ src ++ open_tag ++ seen ++ left /\ tagged ext a /\ mistake ext plugins seen left (tb_kind x) /\
    tb_path x = file /\ (tb_line x, tb_col x) = last_position (a ++ src ++ open_tag ++ seen).
(** Front matter that is malformed, and the error: a line that is not a pair, or no end. *)
Inductive bad_front (file : path) (t : text) : traceback parse_error -> Prop :=
| bf_line fs kvs bad rest : opens_front t -> text_lines (lit "---" :: fs ++ bad :: rest) t -> Forall2 pair_line kvs fs ->
    Forall (fun l => ~ dashes l) fs -> ~ dashes bad -> (forall kv, ~ pair_line kv bad) ->
    bad_front file t (TB file (2 + N.of_nat (length fs)) 0 PE_InvalidFrontmatter)
| bf_open fs kvs : opens_front t -> text_lines (lit "---" :: fs) t -> Forall2 pair_line kvs fs ->
    Forall (fun l => ~ dashes l) fs -> bad_front file t (TB file (1 + N.of_nat (length fs)) 0 PE_UnexpectedEOF).

Section Reads.
  Variable h : host.
  Variable ps : list plugin.
  Let table : list (text * list plugin_parser) := map (fun p => (pl_name p, pl_fns p)) ps.
  Definition parsed_exts : list text := [lit "html"; lit "md"; lit "json"].
  (** The plugin in charge of an extension: the first that names it. *)
  Definition in_charge (ext : text) (np : node_parser) : Prop :=
    exists a b, flat_map pl_parsers ps = a ++ np :: b /\ In ext (npa_exts np) /\ Forall (fun q => ~ In ext (npa_exts q)) a.

  (** A file that can be read. *)
  Inductive sound (p : path) (name : text) (b : bytes) : Prop :=
  | so_html t ks : has_ext name (lit "html") -> utf8_text b t -> SpecGrammar.means (h_ext h) table t ks -> sound p name b
  | so_md t fm body ks : has_ext name (lit "md") -> utf8_text b t -> md_parts t fm body -> SpecGrammar.means (h_ext h) table body ks ->
      sound p name b
  | so_json t v : has_ext name (lit "json") -> utf8_text b t -> h_json h t = Some v -> sound p name b
  | so_plugin ext np c : has_ext name ext -> ~ In ext parsed_exts -> in_charge ext np -> npa_parse np b p = inr c -> sound p name b
  | so_plain : (forall ext, has_ext name ext -> ~ In ext parsed_exts /\ forall np, In np (flat_map pl_parsers ps) -> ~ In ext (npa_exts np)) ->
      sound p name b.
  (** A file that cannot, and the error. *)
  Inductive faulty (p : path) (name : text) (b : bytes) : error -> Prop :=
  | fa_text ext : has_ext name ext -> In ext parsed_exts -> (forall t, ~ utf8_text b t) -> faulty p name b (E_Fs FE_Read)
  | fa_html t x : has_ext name (lit "html") -> utf8_text b t -> malformed (h_ext h) table p t x -> faulty p name b (E_Parse x)
  | fa_front t x : has_ext name (lit "md") -> utf8_text b t -> bad_front p t x -> faulty p name b (E_Parse x)
  | fa_body t fm body x : has_ext name (lit "md") -> utf8_text b t -> md_parts t fm body -> malformed (h_ext h) table p body x ->
      faulty p name b (E_Parse x)
  | fa_json t : has_ext name (lit "json") -> utf8_text b t -> h_json h t = None -> faulty p name b (E_Parse (TB p 0 0 PE_InvalidJson))
  | fa_plugin ext np m : has_ext name ext -> ~ In ext parsed_exts -> in_charge ext np -> npa_parse np b p = inl m ->
      faulty p name b (E_Plugin m).
  (** A file that makes the program panic. *)
  Inductive breaking (name : text) (b : bytes) : Prop :=
  | bk_html t : has_ext name (lit "html") -> utf8_text b t -> breaks (h_ext h) table t -> breaking name b
  | bk_md t fm body : has_ext name (lit "md") -> utf8_text b t -> md_parts t fm body -> breaks (h_ext h) table body -> breaking name b.

  (** A directory all of whose files, at any depth, can be read. *)
  Inductive sound_tree : path -> text -> ent -> Prop :=
  | st_file p name b : sound p name b -> sound_tree p name (EFile b)
  | st_dir p name l : Forall (fun e => sound_tree (p ++ [fst e]) (fst e) (snd e)) l -> sound_tree p name (EDir l).
  (** The first entry that cannot be read, in the order in which the directories list them, and what
      comes of it: an error, or a panic ([None]). *)
  Inductive stops : path -> text -> ent -> option error -> Prop :=
  | sp_fault p name b x : ~ sound p name b -> faulty p name b x -> stops p name (EFile b) (Some x)
  | sp_break p name b : breaking name b -> stops p name (EFile b) None
  | sp_other p name : stops p name EOther (Some (E_Fs FE_Read))
  | sp_dir p name l1 k e l2 r : Forall (fun e => sound_tree (p ++ [fst e]) (fst e) (snd e)) l1 -> stops (p ++ [k]) k e r ->
      stops p name (EDir (l1 ++ (k, e) :: l2)) r.
End Reads.
