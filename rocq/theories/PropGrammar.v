(** PropGrammar.v -- exactly which texts are templates (C74) and on which the parser breaks down (C04),
    and which templates can be written (C75). *)

From Coq Require Import String List NArith ZArith Bool.
From Verif Require Import Text Base Syntax Parse SpecTemplate SpecGrammar SpecBreak GrammarFacts ShapeFacts ParseInv BreakFacts.
Import ListNotations.

(** A text is accepted exactly when it is written as the grammar says, every call denoting a
    function, and its tokens are then those of the grammar. *)
Theorem C74_grammar : forall ext plugins file t ks,
  (exists toks, parse_html ext plugins file t = Ok toks /\ map t_inner toks = ks) <-> means ext plugins t ks.
Proof. exact parse_means. Qed.
Print Assumptions C74_grammar.

(** A text has at most one meaning. *)
Theorem C74_one_meaning : forall ext plugins t ks ks',
  means ext plugins t ks -> means ext plugins t ks' -> ks = ks'.
Proof. exact one_meaning. Qed.
Print Assumptions C74_one_meaning.

(** A text is made of raw texts and tags in one way only. *)
Theorem C74_one_shape : forall ext l r t, loose_template ext l r t -> forall l' r', loose_template ext l' r' t -> l' = l /\ r' = r.
Proof. exact one_shape. Qed.
Print Assumptions C74_one_shape.

(** The documented way of writing templates (C03) is one of those of the grammar. *)
Theorem C74_canonical : forall ext l r t, template_text ext l r t -> loose_template ext l r t.
Proof. exact canonical. Qed.
Print Assumptions C74_canonical.

(** Empty arguments, a blank before the parenthesis, an escaped pair, a third brace. *)
Example C74_example : means (fun _ => false) []
  (lit "a\{{b{{ for ( , $x,$y , limit=3,, ) }}\{{{$z}}.") 
  [TRaw (lit "a{{b"); TFun (FFor (ForFn (lit "x") (lit "y") SrcVar None (Some 3%N) None false));
   TRaw (lit "{"); TVar (lit "z"); TRaw (lit ".")].
Proof.
  apply (C74_grammar _ _ []). eexists. split; [vm_compute; reflexivity|reflexivity].
Qed.
(** Texts without a meaning: an unclosed tag, a space before the equals sign, a call of nothing. *)
Example C74_none : forall t, In t [lit "{{ $x "; lit "{{ for($x, $y, limit =3) }}"; lit "{{ nothing() }}"] ->
  forall ks, ~ means (fun _ => false) [] t ks.
Proof.
  intros t [<-|[<-|[<-|[]]]] ks H; apply (C74_grammar _ _ []) in H as (toks & E & _); vm_compute in E; discriminate.
Qed.

(** Every sequence of raw texts and tags can be written: false, a backslash cannot stand before a
    tag. *)
Theorem C75_every_refuted : exists l r ks, template_tokens [] l r ks /\
  Forall (fun sg => tag_ok (fun _ => false) (snd sg)) l /\
  forall t, ~ means (fun _ => false) [] t ks.
Proof.
  exists [([c_bslash], GVar (lit "a"))], [], [TRaw [c_bslash]; TVar (lit "a")].
  split; [exact (tk_tag [] [c_bslash] (GVar (lit "a")) [] [] (TVar (lit "a")) [] (de_var [] (lit "a")) (tk_end [] []))|].
  split; [repeat constructor; discriminate|].
  intros t. apply backslash_unwritable.
Qed.
Print Assumptions C75_every_refuted.

(** Those that can be written are exactly those with no backslash in front of a tag. *)
Theorem C75_writable_partial : forall ext l r, (exists t, loose_template ext l r t) <->
  Forall (fun sg => ~ ends_in_backslash (fst sg) /\ tag_ok ext (snd sg)) l.
Proof. exact writable. Qed.
Print Assumptions C75_writable_partial.

(** An opening brace in front of a tag, an integer argument. *)
Example C75_example : exists t, loose_template (fun _ => false)
  [(lit "a{", GCall (lit "excerpt") [AVar (lit "x"); AInt 20] [])] (lit "\") t /\
  exists toks, parse_html (fun _ => false) [] [] t = Ok toks /\
    map t_inner toks = [TRaw (lit "a{"); TFun (FExcerpt (lit "x") 20); TRaw (lit "\")].
Proof.
  assert (H : exists t, loose_template (fun _ => false)
    [(lit "a{", GCall (lit "excerpt") [AVar (lit "x"); AInt 20] [])] (lit "\") t).
  { apply C75_writable_partial. constructor; [|constructor]. split.
    - intros [u E]. apply (f_equal (@rev char)) in E. rewrite rev_app_distr in E. discriminate E.
    - split; [discriminate|]. split; [reflexivity|].
      constructor; [split; [reflexivity|exact Logic.I]|].
      constructor; [split; [split; discriminate|exact Logic.I]|constructor]. }
  destruct H as [t H]. exists t. split; [exact H|]. apply C74_grammar.
  exists [(lit "a{", GCall (lit "excerpt") [AVar (lit "x"); AInt 20] [])], (lit "\"). split; [exact H|].
  refine (tk_tag [] (lit "a{") _ [] (lit "\") (TFun (FExcerpt (lit "x") 20)) _ _ (tk_end [] (lit "\"))).
  apply de_builtin. apply (bc_excerpt (lit "x") 20). discriminate.
Qed.

(** ** C04: the texts that make the parser panic, all of them; the other texts that are not templates are
    reported. *)
Theorem C04_exact_partial : forall ext plugins file t,
  (exists x, parse_html ext plugins file t = Panic x) <-> breaks ext plugins t.
Proof. exact panics_exactly. Qed.
Print Assumptions C04_exact_partial.
Theorem C04_reported_partial : forall ext plugins file t, (forall ks, ~ means ext plugins t ks) -> ~ breaks ext plugins t ->
  exists e, parse_html ext plugins file t = Err e.
Proof. exact reported. Qed.
Print Assumptions C04_reported_partial.
(** A named argument, behind another tag and another argument, with blanks at the end. *)
Example C04_breaks : breaks (fun _ => false) [] (lit "a{{ else() }}b{{ for($x , limit="" " ++ [10%N]).
Proof. apply (C04_exact_partial _ _ []). eexists. vm_compute. reflexivity. Qed.
(** No other quotation marks do: in raw text, in a finished argument, with something behind it, and
    behind a tag that is not in order. *)
Example C04_sound : forall t, In t (map lit ["{{ $x }} """; "{{ f(""a"""; "{{ f(""a"; "{{ f(x"""; "{{ no() }}{{ f("""]%string) ->
  ~ breaks (fun _ => false) [] t.
Proof.
  intros t I H. apply (C04_exact_partial _ _ []) in H as [x E]. cbn [map] in I.
  repeat (destruct I as [<-|I]; [vm_compute in E; discriminate E|]). exact I.
Qed.
