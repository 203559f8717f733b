(** PropParse.v -- properties C01 to C10: parsing templates. *)

From Coq Require Import String List NArith ZArith Bool Lia.
From Verif Require Import Text TextFacts Base Syntax Parse SpecTemplate SpecLocation
  ParseFacts ParseInv ParseErr ParseLoc.
Import ListNotations.
Local Open Scope N_scope.

(** ** C01 *)
Theorem C01_plain_text : forall ext plugins file t,
  (forall a b, t <> a ++ open_tag ++ b) ->
  parse_html ext plugins file t =
  Ok (match t with [] => [] | _ => [LTok (TRaw t) (Loc file 1 1)] end).
Proof. exact parse_plain. Qed.
Print Assumptions C01_plain_text.
Example C01_case : forall a b, lit "a { b \ }} c" <> a ++ open_tag ++ b.
Proof. apply no_open_spec. reflexivity. Qed.

(** ** C02 *)
Theorem C02_escaping : forall ext plugins file t,
  unescapes (escape t) t /\
  parse_html ext plugins file (escape t) =
  Ok (match t with [] => [] | _ => [LTok (TRaw t) (Loc file 1 1)] end).
Proof.
  exact (fun ext plugins file t =>
    conj (escape_unescapes (length t) t (le_n _)) (parse_escaped ext plugins file t)).
Qed.
Print Assumptions C02_escaping.
Example C02_case : escape (lit "x{{{ \{{ y") = lit "x{\{{ \\{{ y".
Proof. reflexivity. Qed.

(** ** C03 *)
Theorem C03_printed_templates : forall ext plugins file l r t ks,
  template_text ext l r t ->
  (exists toks, parse_html ext plugins file t = Ok toks /\ map t_inner toks = ks) <->
  template_tokens plugins l r ks.
Proof. exact parse_template_iff. Qed.
Print Assumptions C03_printed_templates.
Example C03_case : exists l r ks,
  template_text (fun _ => false) l r
    (lit "a\{{b{{ for ( $x ,""posts/"", limit=+03)  }}{{$x.t}}{{end(for)}} c") /\
  template_tokens [] l r ks /\ length ks = 5%nat.
Proof.
  exists [(lit "a{{b", GCall (lit "for") [AVar (lit "x"); AStr (lit "posts/")] [(lit "limit", AInt 3)]);
          ([], GVar (lit "x.t")); ([], GCall (lit "end") [AIdent (lit "for")] [])], (lit " c").
  eexists. split; [|split].
  - refine (tt_tag _ (lit "a{{b") _ (lit " ") (lit "for ( $x ,""posts/"", limit=+03)") (lit "  ") _ _ _ _ _ _ _ _);
      try reflexivity.
    + intros u c E. destruct u as [|? [|? [|? [|? u]]]]; try discriminate.
      * injection E as _ _ _ E. subst. split; discriminate.
      * exfalso. injection E as _ _ _ _ E. destruct u; discriminate.
    + refine (tb_call _ (lit "for") (lit " ") _ _ (lit " $x ,""posts/"", limit=+03") _ _ _ _ _); try reflexivity; try discriminate.
      * repeat apply Forall_cons; [..|apply Forall_nil]; split; try exact I; try reflexivity.
        -- cbn. intuition discriminate.
        -- cbn. lia.
        -- split; [discriminate|reflexivity].
      * refine (at_more (lit " ") _ _ (lit " ") _ _ _ _ _ (pt_pos _ _ (ar_var (lit "x"))) _); try reflexivity.
        refine (at_more [] _ _ [] _ _ (lit " limit=+03") _ _ (pt_pos _ _ (ar_str (lit "posts/"))) _); try reflexivity.
        refine (at_one (lit " ") _ _ [] _ _ (pt_named (lit "limit") _ _ (ar_int _ (lit "+03") _))); try reflexivity.
        apply (in_plus (lit "03") 3), (nu_more [48] 0 3); [apply (nu_one 0)|]; lia.
    + refine (tt_tag _ [] _ [] (lit "$x.t") [] _ _ _ _ _ _ _ _); try reflexivity.
      * intros u c E. destruct u; discriminate.
      * apply tb_var; [discriminate|reflexivity].
      * refine (tt_tag _ [] _ [] (lit "end(for)") [] [] _ _ _ _ _ _ _); try reflexivity.
        -- intros u c E. destruct u; discriminate.
        -- refine (tb_call _ (lit "end") [] [AIdent (lit "for")] [] (lit "for") _ _ _ _ _); try reflexivity; try discriminate.
           ++ apply Forall_cons; [|apply Forall_nil]. split; [|exact I].
              cbn. tauto.
           ++ refine (at_one [] _ (lit "for") [] _ _ (pt_pos _ _ (ar_ident _))); reflexivity.
        -- apply (tt_end _ (lit " c")).
  - apply tk_tag; [apply de_builtin|].
    + refine (bc_for (lit "x") _ _ _ _ (fs_dir (lit "posts")) _ _ _ _); cbn; try lia.
      apply Forall_cons; [|apply Forall_nil]. right. left. split; auto. exists 3%Z. split; [reflexivity|lia].
    + apply tk_tag; [apply de_var|]. apply tk_tag; [apply de_builtin, bc_end_i|]. apply tk_end.
  - reflexivity.
Qed.

(** ** C04: false as stated ... *)
Theorem C04_total_refuted : exists input, forall ext plugins file, exists p,
  parse_html ext plugins file input = Panic p.
Proof. exists (lit "{{ f("""). intros. eexists. vm_compute. reflexivity. Qed.
Print Assumptions C04_total_refuted.
(** ... true of every text whose last visible character is not a double quote: the loops end, no
    other panic exists. *)
Theorem C04_total_partial : forall ext plugins file input,
  (exists toks, parse_html ext plugins file input = Ok toks) \/
  (exists e, parse_html ext plugins file input = Err e) \/
  (exists p, parse_html ext plugins file input = Panic p) /\
    exists a w, input = a ++ [c_quote] ++ w /\ blank w.
Proof. exact parse_html_total. Qed.
Print Assumptions C04_total_partial.

(** ** C05 *)
Theorem C05_token_lines : forall ext plugins file input toks k loc,
  parse_html ext plugins file input = Ok toks -> In (LTok k loc) toks -> is_tag k ->
  exists q c, tag_at ext input k (q ++ [c]) /\
    l_path loc = file /\ l_line loc = 1 + newlines q.
Proof. exact parse_html_lines. Qed.
Print Assumptions C05_token_lines.
(** Together with the order of the tokens, the raw text between them and its position. *)
Theorem C05_token_positions : forall ext plugins file input toks,
  parse_html ext plugins file input = Ok toks -> located ext file [] input toks.
Proof. exact parse_html_located. Qed.
Print Assumptions C05_token_positions.
Example C05_case : exists toks,
  parse_html (fun _ => false) [] [] (lit "a" ++ [c_lf; c_lf] ++ lit "{{" ++ [c_lf] ++ lit " $x }}") =
  Ok (toks ++ [LTok (TVar (lit "x")) (Loc [] 4 0)]).
Proof. eexists [_]. vm_compute. reflexivity. Qed.

(** ** C06: columns start at 1 on the first line, at 0 on the others. *)
Theorem C06_columns_refuted : exists a b toks c1 c2,
  a = b /\ ~ In c_lf a /\
  (forall file, parse_html (fun _ => false) [] file (a ++ [c_lf] ++ b) = Ok (toks file)) /\
  (forall file, toks file = [LTok (TVar (lit "x")) (Loc file 1 c1); LTok (TRaw [c_lf]) (Loc file 1 6);
                             LTok (TVar (lit "x")) (Loc file 2 c2)]) /\ c1 <> c2.
Proof.
  exists (lit "{{$x}}"), (lit "{{$x}}"), (fun file => [LTok (TVar (lit "x")) (Loc file 1 2);
    LTok (TRaw [c_lf]) (Loc file 1 6); LTok (TVar (lit "x")) (Loc file 2 1)]), 2, 1.
  split; [reflexivity|]. split; [cbv; intuition discriminate|]. repeat split; try reflexivity. discriminate.
Qed.
Print Assumptions C06_columns_refuted.
Theorem C06_columns_partial : forall ext plugins file input toks k loc,
  parse_html ext plugins file input = Ok toks -> In (LTok k loc) toks -> is_tag k ->
  exists q c l first, tag_at ext input k (q ++ [c]) /\ last_line_is q l first /\
    loc = Loc file (1 + newlines q) (width l + (if first then 1 else 0)).
Proof. exact parse_html_tags. Qed.
Print Assumptions C06_columns_partial.

(** ** C07 *)
Theorem C07_well_formed : forall ext plugins file input toks,
  parse_html ext plugins file input = Ok toks -> forall k loc, In (LTok k loc) toks ->
  match k with
  | TRaw s => s <> []
  | TVar v => v <> [] /\ forall c, In c v -> word_point ext c = true \/ c = c_under \/ c = c_dot
  | TFun _ => True
  end.
Proof. exact parse_html_wf. Qed.
Print Assumptions C07_well_formed.

(** ** C08 *)
Theorem C08_argument_order : forall ext plugins file l t ks s w1 name args c,
  tags_text ext l t -> Forall2 (fun sg k => denotes plugins (snd sg) k) l ks ->
  can_precede_tag s -> blank w1 -> call_text ext name args c ->
  (misplaced args /\ forall rest, fails_with PE_PositionalArgAfterNamedArg
     (parse_html ext plugins file (t ++ escape s ++ open_tag ++ w1 ++ c ++ rest))) \/
  (~ misplaced args /\ exists pos named, args = pargs pos named /\
     forall w2 k rest, blank w2 -> denotes plugins (GCall name pos named) k ->
     exists toks, parse_html ext plugins file
         (t ++ escape s ++ open_tag ++ w1 ++ c ++ w2 ++ close_tag ++ escape rest) = Ok toks /\
       template_tokens plugins (l ++ [(s, GCall name pos named)]) rest (map t_inner toks)).
Proof. exact parse_call_order. Qed.
Print Assumptions C08_argument_order.
Example C08_case : misplaced [(Some (lit "limit"), AInt 3); (None, AVar (lit "x"))].
Proof. exists [], (lit "limit"), (AInt 3), [], (AVar (lit "x")), []. reflexivity. Qed.

(** ** C09 *)
Theorem C09_builtins_win : forall ext p1 p2 file l r t ks,
  template_text ext l r t -> Forall (fun sg => builtin_tag (snd sg)) l ->
  (exists toks, parse_html ext p1 file t = Ok toks /\ map t_inner toks = ks) <->
  (exists toks, parse_html ext p2 file t = Ok toks /\ map t_inner toks = ks).
Proof. exact parse_builtins. Qed.
Print Assumptions C09_builtins_win.
Theorem C09_first_plugin : forall ext plugins file s name pos named b w1 w2 r p,
  can_precede_tag s -> blank w1 -> blank w2 -> tag_body ext (GCall name pos named) b ->
  ~ In name builtin_names -> first_plugin plugins name p ->
  let t := escape s ++ open_tag ++ w1 ++ b ++ w2 ++ close_tag ++ escape r in
  match pp_parse p (RawFn name pos named) with
  | inr g => exists toks, parse_html ext plugins file t = Ok toks /\
               map t_inner toks = raw_part s ++ TFun (FPlugin g) :: raw_part r
  | inl e => fails_with e (parse_html ext plugins file t)
  end.
Proof. exact parse_one_plugin. Qed.
Print Assumptions C09_first_plugin.
Theorem C09_unknown_function : forall ext plugins file l t ks s w1 name pos named c rest,
  tags_text ext l t -> Forall2 (fun sg k => denotes plugins (snd sg) k) l ks ->
  can_precede_tag s -> blank w1 -> call_text ext name (pargs pos named) c -> unknown plugins name ->
  fails_with (PE_NonexistentFunction name)
    (parse_html ext plugins file (t ++ escape s ++ open_tag ++ w1 ++ c ++ rest)).
Proof. exact parse_unknown. Qed.
Print Assumptions C09_unknown_function.
Example C09_case : first_plugin [(lit "p", [PluginParser (lit "f") (fun _ => inl PE_UnexpectedEOF)]);
                                 (lit "q", [PluginParser (lit "f") (fun _ => inl PE_InvalidArgument)])] (lit "q::f")
                     (PluginParser (lit "f") (fun _ => inl PE_InvalidArgument)) /\
                   unknown [(lit "p", [PluginParser (lit "f") (fun _ => inl PE_UnexpectedEOF)])] (lit "g").
Proof.
  split.
  - exists [(lit "p", PluginParser (lit "f") (fun _ => inl PE_UnexpectedEOF))], (lit "q"), [].
    split; [reflexivity|]. split; [now right|]. repeat constructor. intros [H|H]; discriminate.
  - split; [cbv; intuition discriminate|]. intros p f [H|[]]. injection H as <- <-. intros [H|H]; discriminate.
Qed.

(** ** C10 *)
Theorem C10_builtin_arguments : forall ext plugins file s name pos named b w1 w2 r f,
  can_precede_tag s -> blank w1 -> blank w2 -> tag_body ext (GCall name pos named) b -> In name builtin_names ->
  (exists toks,
     parse_html ext plugins file (escape s ++ open_tag ++ w1 ++ b ++ w2 ++ close_tag ++ escape r) = Ok toks /\
     map t_inner toks = raw_part s ++ TFun f :: raw_part r) <->
  builtin_call name pos named f.
Proof. exact parse_one_builtin. Qed.
Print Assumptions C10_builtin_arguments.
Example C10_case : exists b, tag_body (fun _ => false) (GCall (lit "excerpt") [AVar (lit "x"); AInt (-1)] []) b /\
  ~ exists f, builtin_call (lit "excerpt") [AVar (lit "x"); AInt (-1)] [] f.
Proof.
  exists (lit "excerpt($x,-1)"). split.
  - refine (tb_call _ (lit "excerpt") [] _ _ (lit "$x,-1") _ _ _ _ _); try reflexivity; try discriminate.
    + repeat apply Forall_cons; [..|apply Forall_nil]; split; try exact I; try reflexivity. cbn. lia.
    + refine (at_more [] _ _ [] _ _ (lit "-1") _ _ (pt_pos _ _ (ar_var (lit "x"))) _); try reflexivity.
      refine (at_one [] _ _ [] _ _ (pt_pos _ _ (ar_int _ (lit "-1") _))); try reflexivity.
      apply (in_minus (lit "1") 1), (nu_one 1). lia.
  - intros [f H]. remember (lit "excerpt") as n eqn:En. remember [AVar (lit "x"); AInt (-1)] as p eqn:Ep.
    destruct H; try discriminate. injection Ep as _ ->. lia.
Qed.

(** ** C60 *)
Theorem C60_parse_errors : forall ext plugins file input e, parse_html ext plugins file input = Err e ->
  exists a src seen left, input = a ++ src ++ open_tag ++ seen ++ left /\ tagged ext a /\
    mistake ext plugins seen left (tb_kind e) /\
    tb_path e = file /\ (tb_line e, tb_col e) = last_position (a ++ src ++ open_tag ++ seen).
Proof. exact parse_html_err. Qed.
Print Assumptions C60_parse_errors.
(** An unknown function after a good tag: the position is that of the blank in front of its name. *)
Example C60_case : parse_html (fun _ => false) [] [] (lit "{{ $x }}" ++ [c_lf] ++ lit "a {{ nope(1) }}") =
  Err (TB [] 2 4 (PE_NonexistentFunction (lit "nope"))).
Proof. vm_compute. reflexivity. Qed.
