(** PropPlugins.v -- properties C70 and C71: several plugins together. *)

From Coq Require Import String List NArith ZArith Bool Permutation.
From Verif Require Import Text Utf8 Json Base Syntax Parse Tree Interp Build Disk Cli SpecTemplate SpecDisk SpecPlugins.
From Verif Require Import PluginFacts.
Import ListNotations.

(** ** C70 *)
(** Plugins come in the order of a hash table: the build does the same in every order.
    Missing: plugins that provide functions of the same name or read files of the same extension. *)
Theorem C70_order_partial : forall m f c d ps ps' c1 d1 r, Permutation ps ps' -> agreed ps ->
  cli_build m f (with_plugins ps c) d = (c1, d1, r) -> cli_build m f (with_plugins ps' c) d = (with_plugins ps' c1, d1, r).
Proof. exact order_same. Qed.
Print Assumptions C70_order_partial.
(** Plugins whose functions print a text, and one that reads [.up] files. *)
Example C70_says (name t : text) : plugin_parser :=
  PluginParser name (fun _ => inr {| pf_name := Some name; pf_exec := fun l s => match output (enc t) s with Ok s1 => Ok s1 | Err e => Err (tb l e) | Panic q => Panic q | OutOfFuel => OutOfFuel end; pf_call := None |}).
Example C70_a : plugin := Plugin (lit "a") [C70_says (lit "hi") (lit "A"); C70_says (lit "begin") (lit "never")] [].
Example C70_b : plugin := Plugin (lit "b") [C70_says (lit "hi") (lit "B"); C70_says (lit "begin") (lit "never")] [].
Example C70_c : plugin := Plugin (lit "c") [C70_says (lit "bye") (lit "C"); C70_says (lit "begin") (lit "never")] [NodeParser [lit "up"; lit "md"] (fun _ _ => inl (lit "bad"))].
Example C70_machine : machine :=
  Machine (Host (fun _ => false) (fun t => t) None (fun _ => Some VNull)) (fun _ => enc (lit "meta")) [] (fun _ d => (d, ScriptOk)).
Example C70_disk : ent :=
  EDir [(lit "p", EDir [(lit "content", EDir [(lit "root.html", EFile (enc (lit "r{{ insert(""b"") }}")));
                                              (lit "index.html", EFile (enc (lit "{{ begin(""b"") }}x{{ hi() }}{{ end(""b"") }}")))])])].
Example C70_project : context := init (RawConfig (lit "n") None None) [] [lit "p"] (lit "dist") (lit "production") C70_disk.
Example C70_page : path := [lit "p"; lit "dist"; lit "index.html"].
Example C70_agreed : agreed [C70_a; C70_c].
Proof.
  constructor; [constructor; [|constructor]|constructor; constructor].
  intros [(n & B & (f & If & Af) & g & Ig & Ag)|(e & _ & (np & [] & _) & _)].
  destruct If as [<-|[<-|[]]]; destruct Ig as [<-|[<-|[]]]; destruct Af as [Af|Af]; destruct Ag as [Ag|Ag]; subst n;
    try discriminate Ag; apply B; vm_compute; tauto.
Qed.
Example C70_order_case : exists c1 d1 c1' d1', Permutation [C70_a; C70_c] [C70_c; C70_a] /\
  cli_build C70_machine no_faults (with_plugins [C70_a; C70_c] C70_project) C70_disk = (c1, d1, COk) /\
  cli_build C70_machine no_faults (with_plugins [C70_c; C70_a] C70_project) C70_disk = (c1', d1', COk) /\
  what C70_page d1 = KFile (enc (lit "rxA")) /\ what C70_page d1' = KFile (enc (lit "rxA")).
Proof. do 4 eexists. split; [constructor|]. split; [vm_compute; reflexivity|]. split; [vm_compute; reflexivity|]. split; vm_compute; reflexivity. Qed.
(** Two plugins with a function [hi]: the page depends on the order. *)
Theorem C70_order_refuted : exists m f c d ps ps' c1 d1 c2 d2 q, Permutation ps ps' /\
  cli_build m f (with_plugins ps c) d = (c1, d1, COk) /\ cli_build m f (with_plugins ps' c) d = (c2, d2, COk) /\ what q d1 <> what q d2.
Proof.
  exists C70_machine, no_faults, C70_project, C70_disk, [C70_a; C70_b], [C70_b; C70_a]. do 4 eexists. exists C70_page.
  split; [constructor|]. split; [vm_compute; reflexivity|]. split; [vm_compute; reflexivity|]. vm_compute. discriminate.
Qed.
Print Assumptions C70_order_refuted.
(** Adding a plugin with functions only changes nothing in a project that built, if what it
    provides is not provided by plugins after it.  It may hold names of built-ins. *)
Theorem C70_added : forall m f c d l1 p l2 c1 d1, functions_only p -> Forall (fun q => ~ clash p q) l2 ->
  cli_build m f (with_plugins (l1 ++ l2) c) d = (c1, d1, COk) ->
  cli_build m f (with_plugins (l1 ++ p :: l2) c) d = (with_plugins (l1 ++ p :: l2) c1, d1, COk).
Proof. exact more_same. Qed.
Print Assumptions C70_added.
Example C70_added_case : functions_only C70_b /\ clash C70_b C70_a /\ Forall (fun q => ~ clash C70_b q) [C70_c] /\
  exists c1 d1, cli_build C70_machine no_faults (with_plugins ([C70_a] ++ [C70_c]) C70_project) C70_disk = (c1, d1, COk) /\
    what C70_page d1 = KFile (enc (lit "rxA")).
Proof.
  split; [intros e (np & [] & _)|]. split.
  { left. exists (lit "hi"). split; [intros I; vm_compute in I; intuition discriminate|].
    split; eexists; (split; [left; reflexivity|left; reflexivity]). }
  split.
  { constructor; [|constructor]. intros [(n & B & (f & If & Af) & g & Ig & Ag)|(e & _ & (np & [] & _) & _)].
    destruct If as [<-|[<-|[]]]; destruct Ig as [<-|[<-|[]]]; destruct Af as [Af|Af]; destruct Ag as [Ag|Ag]; subst n;
      try discriminate Ag; apply B; vm_compute; tauto. }
  do 2 eexists. split; vm_compute; reflexivity.
Qed.

(** ** C71 *)
(** A call of [plugin::name] is a call of the function [name] of the first plugin so called.
    Missing: functions with a colon in their name. *)
Theorem C71_qualified_partial : forall ext file l1 p l2 fs1 f fs2 pos named b w1 w2 s r,
  Forall (fun q => pl_name q <> pl_name p) l1 -> (forall q g, In q (l1 ++ p :: l2) -> In g (pl_fns q) -> plain_name (pp_name g)) ->
  pl_fns p = fs1 ++ f :: fs2 -> Forall (fun g => pp_name g <> pp_name f) fs1 ->
  can_precede_tag s -> blank w1 -> blank w2 -> tag_body ext (GCall (pl_name p ++ lit "::" ++ pp_name f) pos named) b ->
  let t := escape s ++ open_tag ++ w1 ++ b ++ w2 ++ close_tag ++ escape r in
  match pp_parse f (RawFn (pl_name p ++ lit "::" ++ pp_name f) pos named) with
  | inr g => exists toks, parse_html ext (fns (l1 ++ p :: l2)) file t = Ok toks /\
               map t_inner toks = raw_part s ++ TFun (FPlugin g) :: raw_part r
  | inl e => fails_with e (parse_html ext (fns (l1 ++ p :: l2)) file t)
  end.
Proof. exact qualified_call. Qed.
Print Assumptions C71_qualified_partial.
Example C71_case : exists fs1 fs2, Forall (fun q => pl_name q <> pl_name C70_b) [C70_a] /\
  (forall q g, In q ([C70_a] ++ C70_b :: [C70_c]) -> In g (pl_fns q) -> plain_name (pp_name g)) /\
  pl_fns C70_b = fs1 ++ C70_says (lit "hi") (lit "B") :: fs2 /\ Forall (fun g => pp_name g <> pp_name (C70_says (lit "hi") (lit "B"))) fs1 /\
  tag_body (fun _ => false) (GCall (lit "b::hi") [AStr (lit "x")] []) (lit "b::hi(""x"")").
Proof.
  exists [], [C70_says (lit "begin") (lit "never")]. split; [repeat constructor; discriminate|]. split.
  { intros q g [<-|[<-|[<-|[]]]] [<-|[<-|[]]] I; vm_compute in I; intuition discriminate. }
  split; [reflexivity|]. split; [constructor|].
  apply (tb_call (fun _ => false) (lit "b::hi") [] [AStr (lit "x")] [] (lit """x""")); try discriminate; try reflexivity; try constructor.
  - split; [|constructor]. cbn. intros [H|[]]; discriminate.
  - constructor.
  - apply (at_one [] (None, AStr (lit "x")) (lit """x""") []); try reflexivity. constructor. apply (ar_str (lit "x")).
Qed.
(** A function [b::hi] of a plugin [a] takes the place of the function [hi] of [b]. *)
Theorem C71_qualified_refuted : exists ext file p q f g toks, pl_name q <> pl_name p /\ pl_fns p = [f] /\
  pp_parse f (RawFn (pl_name p ++ lit "::" ++ pp_name f) [] []) = inr g /\
  parse_html ext (fns [q; p]) file (open_tag ++ (pl_name p ++ lit "::" ++ pp_name f) ++ lit "()" ++ close_tag) = Ok toks /\
  map t_inner toks <> [TFun (FPlugin g)].
Proof.
  exists (fun _ => false), [], (Plugin (lit "b") [C70_says (lit "hi") (lit "B")] []), (Plugin (lit "a") [C70_says (lit "b::hi") (lit "A")] []).
  do 3 eexists. split; [discriminate|]. split; [reflexivity|]. split; [reflexivity|]. split; [vm_compute; reflexivity|].
  vm_compute. intros H. injection H. discriminate.
Qed.
Print Assumptions C71_qualified_refuted.
