(** PropRename.v -- C89. *)

From Coq Require Import String List NArith ZArith Bool.
From Verif Require Import Text Utf8 Json Base Syntax Parse Tree Interp Build SpecTemplate SpecChars SpecGrammar SpecScope SpecTree SpecSite SpecLocal SpecRename.
From Verif Require Import TreeFacts Utf8Facts GrammarFacts RenameFacts.
Import ListNotations.

(** C89. Renaming the variables of templates, each template by its own one-to-one renaming that
    keeps [env] and [self], leaves the site as it was: the build succeeds as before and every page
    has the same bytes in the same place. *)
Theorem C89_site h osenv mode d d' st e e' : sd_path d' = sd_path d -> sd_name d' = sd_name d -> sd_ent d = Some e -> sd_ent d' = Some e' -> ent_distinct e ->
  renamed h (st_plugins st) (sd_name d) e e' ->
  (snd (build h osenv mode d st) = Ok tt <-> snd (build h osenv mode d' st) = Ok tt) /\
  (snd (build h osenv mode d st) = Ok tt -> exists out out', st_output (fst (build h osenv mode d st)) = Some out /\ st_output (fst (build h osenv mode d' st)) = Some out' /\ same_pages out out').
Proof. exact (renaming h osenv mode d d' st e e'). Qed.
Print Assumptions C89_site.

(** A list of posts, with one renaming for the page (which exchanges two names) and another for the
    template around it. *)
Definition C89_host : host := Host (fun _ => false) (fun t => t) None (fun _ => Some (VArr [VStr (lit "x"); VStr (lit "y")])).
Definition C89_st : stuart := stuart_new config_default [].
Definition C89_index (v w : string) : string :=
  ("{{ begin(""body"") }}{{ import($" ++ w ++ ", ""d.json"") }}{{ for($" ++ v ++ ", ""posts/"", sortby=$" ++ v ++ ".title) }}{{ $" ++ v ++
   ".title }}{{ for($x, $" ++ w ++ ") }}{{ $x }}{{ end(for) }}{{ end(for) }}{{ end(""body"") }}")%string.
Definition C89_root (v : string) : string := ("{{ import($" ++ v ++ ", ""d.json"") }}<{{ insert(""body"") }}>{{ for($y, $" ++ v ++ ") }}{{ $y }}{{ end(for) }}")%string.
Definition C89_content (v w u : string) : ent :=
  EDir [(lit "index.html", EFile (enc (lit (C89_index v w)))); (lit "root.html", EFile (enc (lit (C89_root u)))); (lit "d.json", EFile (enc (lit "[]")));
        (lit "md.html", EFile (enc (lit "{{ begin(""body"") }}{{ $self.content }}{{ end(""body"") }}")));
        (lit "posts", EDir [(lit "b.md", EFile (enc (lit "---
title: ""B""
---
t"))); (lit "a.md", EFile (enc (lit "---
title: ""A""
---
t")))])].
Definition C89_dir (v w u : string) : source_dir := SourceDir [lit "c"] (lit "c") (Some (C89_content v w u)).
Definition C89_swap (a a' : text) : Prop := In (a, a') [(lit "p", lit "q"); (lit "q", lit "p"); (lit "x", lit "x")].
Definition C89_list (a a' : text) : Prop := In (a, a') [(lit "all", lit "items"); (lit "y", lit "y")].
Example C89_one : one_to_one C89_swap /\ one_to_one C89_list.
Proof.
  split; (split; [intros a a' b b' A B|split; intros a a' A]); cbn [C89_swap C89_list In] in *;
    repeat match goal with X : _ \/ _ |- _ => destruct X as [X|X] | X : False |- _ => destruct X | X : (_, _) = (_, _) |- _ => injection X as <- <- end;
    split; intros E; (reflexivity || discriminate E).
Qed.
Example C89_plain n : In n ["p"; "q"; "x"; "y"; "all"; "items"; "title"]%string -> ~ In c_dot (lit n).
Proof. intros H. repeat (destruct H as [<-|H]; [vm_compute; intuition discriminate|]). destruct H. Qed.
Example C89_text R v v' : one_to_one R -> SpecChars.utf8_text (enc v) v -> SpecChars.utf8_text (enc v') v' -> forall ks ks',
  parse_html (fun _ => false) [] [] v = Ok ks -> parse_html (fun _ => false) [] [] v' = Ok ks' -> Forall2 (tag_change R) (map t_inner ks) (map t_inner ks') ->
  renamed_text C89_host [] (enc v) (enc v').
Proof.
  intros O U U' ks ks' P P' C. exists R, v, v', (map t_inner ks), (map t_inner ks'). repeat (split; [assumption|]). split; [apply (parse_means _ _ []); now exists ks|].
  split; [apply (parse_means _ _ []); now exists ks'|exact C].
Qed.
Ltac C89_name a b ks := exists a, b, ks; split; [reflexivity|]; split; [reflexivity|]; split; [repeat (constructor; [apply C89_plain; cbn; tauto|]); constructor|cbn; tauto].
Example C89_renamed : renamed C89_host [] (lit "c") (C89_content "p" "q" "all") (C89_content "q" "p" "items").
Proof.
  assert (X : forall n, n = "index.html"%string \/ n = "root.html"%string -> has_ext (lit n) (lit "html")) by (intros n [-> | ->]; apply TreeFacts.extension_spec; reflexivity).
  apply rn_dir. constructor; [apply rn_file; [apply X; now left|constructor|]|constructor; [apply rn_file; [apply X; now right|constructor|]|]].
  - eapply (C89_text C89_swap (lit (C89_index "p" "q")) (lit (C89_index "q" "p"))); [apply C89_one|apply decoding; vm_compute; reflexivity|apply decoding; vm_compute; reflexivity|vm_compute; reflexivity|vm_compute; reflexivity| ].
    cbn [map t_inner]. constructor; [apply tc_begin|]. constructor; [apply tc_import; C89_name (lit "q") (lit "p") (@nil text)|].
    constructor; [apply tc_for_file; [C89_name (lit "p") (lit "q") (@nil text)|discriminate|C89_name (lit "p") (lit "q") [lit "title"]]|].
    constructor; [apply tc_var; C89_name (lit "p") (lit "q") [lit "title"]|]. constructor; [apply tc_for_var; [C89_name (lit "x") (lit "x") (@nil text)|C89_name (lit "q") (lit "p") (@nil text)|exact I]|].
    constructor; [apply tc_var; C89_name (lit "x") (lit "x") (@nil text)|]. repeat (constructor; [apply tc_end|]). constructor.
  - eapply (C89_text C89_list (lit (C89_root "all")) (lit (C89_root "items"))); [apply C89_one|apply decoding; vm_compute; reflexivity|apply decoding; vm_compute; reflexivity|vm_compute; reflexivity|vm_compute; reflexivity| ].
    cbn [map t_inner]. constructor; [apply tc_import; C89_name (lit "all") (lit "items") (@nil text)|]. constructor; [apply tc_raw|]. constructor; [apply tc_insert|]. constructor; [apply tc_raw|].
    constructor; [apply tc_for_var; [C89_name (lit "y") (lit "y") (@nil text)|C89_name (lit "all") (lit "items") (@nil text)|exact I]|]. constructor; [apply tc_var; C89_name (lit "y") (lit "y") (@nil text)|]. repeat (constructor; [apply tc_end|]). constructor.
  - repeat (constructor; [apply rn_same|]). constructor.
Qed.
Example C89_distinct : ent_distinct (C89_content "p" "q" "all").
Proof. repeat constructor; vm_compute; intuition discriminate. Qed.
Definition C89_out (d : source_dir) : node := Eval cbv beta in match st_output (fst (build C89_host [] (lit "production") d C89_st)) with Some o => o | None => NDir [] [] [] end.
(** The page is built, and is the same after the renaming. *)
Example C89_shown : snd (build C89_host [] (lit "production") (C89_dir "p" "q" "all") C89_st) = Ok tt /\
  exists ch, C89_out (C89_dir "p" "q" "all") = NDir (lit "c") (NFile (lit "index.html") (enc (lit "<AxyBxy>xy")) PNone None [lit "c"; lit "index.html"] :: ch) [lit "c"].
Proof. split; [vm_compute; reflexivity|]. eexists. vm_compute. reflexivity. Qed.
Example C89_same : exists out out', st_output (fst (build C89_host [] (lit "production") (C89_dir "p" "q" "all") C89_st)) = Some out /\
  st_output (fst (build C89_host [] (lit "production") (C89_dir "q" "p" "items") C89_st)) = Some out' /\ same_pages out out'.
Proof.
  destruct (C89_site C89_host [] (lit "production") (C89_dir "p" "q" "all") (C89_dir "q" "p" "items") C89_st _ _ eq_refl eq_refl eq_refl eq_refl C89_distinct C89_renamed) as [_ X].
  apply X. exact (proj1 C89_shown).
Qed.
