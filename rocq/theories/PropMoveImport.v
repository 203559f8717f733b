(** PropMoveImport.v -- property C91: imports may be moved over blocks that do not use the variable. *)

From Coq Require Import String List NArith ZArith Bool Lia.
From Verif Require Import Text Utf8 Json Base Syntax Parse Tree Interp Build Disk Cli.
From Verif Require Import SpecScope SpecUtf8 SpecRender SpecTemplate SpecLoop SpecBlocks SpecTree SpecSite SpecExact SpecSwap SpecShare SpecJoinIf SpecMoveImport.
From Verif Require Import Utf8Facts SiteFacts ExactFacts PropSite PropExact SwapFacts SwapLaws MoveImport.
Import ListNotations.

Theorem C91_move : forall h ps vars content x file l, ent_distinct content -> ~ In c_dot x -> Forall (without x) l ->
  interchangeable (h_date h) (site_json h content) (site_posts h ps vars content) (BImport x file :: l) (l ++ [BImport x file]).
Proof. exact site_move_import. Qed.
Print Assumptions C91_move.

(** An import is moved over a text, the value of another variable and a section with an import of
    its own, inside a section. *)
Example C91_blocks : list block := [BText (lit "<"); BVar (lit "t"); BSection (lit "s") [BImport (lit "y") (lit "g.json"); BVar (lit "y.t")]].
Example C91_moved vars : rewritten None (site_json C61_host C61_content) (site_posts C61_host [] vars C61_content)
  [BSection (lit "b") (BImport (lit "x") (lit "f.json") :: C91_blocks)] [BSection (lit "b") (C91_blocks ++ [BImport (lit "x") (lit "f.json")])].
Proof.
  apply rw_section, rw_swap, (C91_move C61_host); [exact (proj1 C90_plain)|vm_compute; intuition discriminate|].
  assert (N : forall v, hd_error v <> Some 120%N -> ~ about (lit "x") v) by (intros v E (p & ->); apply E; destruct p; reflexivity).
  constructor; [split; [exact I|constructor]|]. constructor; [split; [exact I|constructor; apply N; discriminate]|]. constructor; [split; [exact I|]|constructor].
  constructor. constructor; [constructor; discriminate|]. constructor; [constructor; apply N; discriminate|constructor].
Qed.
(** Not over a block that uses it: the variable is not set before the import. *)
Example C91_not_moved : let J := fun f v => f = lit "f.json" /\ v = VStr (lit "A") in
  ~ interchangeable None J (fun _ _ => False) [BImport (lit "x") (lit "f.json"); BVar (lit "x")] [BVar (lit "x"); BImport (lit "x") (lit "f.json")].
Proof.
  intros J (_ & _ & Q). destruct (Q [[]] [] (enc (lit "A")) [(lit "x", VStr (lit "A"))] []) as (F & _).
  assert (H : prints None J (fun _ _ => False) [BVar (lit "x"); BImport (lit "x") (lit "f.json")] [[]] [] (enc (lit "A")) [(lit "x", VStr (lit "A"))] []).
  { apply F. apply (pr_simple None J _ (BImport (lit "x") (lit "f.json")) _ [] [] [] [] [(lit "x", VStr (lit "A"))] (enc (lit "A")) [] []);
      [eapply sh_import; [reflexivity|intros []|now split]|].
    apply (pr_simple None J _ (BVar (lit "x")) _ [(lit "x", VStr (lit "A"))] [] [] (enc (lit "A")) [] [] [] []);
      [apply sh_var with (lit "A"); [apply value_get; vm_compute; reflexivity|apply decoding; vm_compute; reflexivity]|constructor]. }
  inversion H; subst. match goal with K : shows _ _ _ _ (BVar _) _ _ |- _ => inversion K; subst end.
  match goal with V : value_of _ _ _ |- _ => apply value_get in V; vm_compute in V; discriminate V end.
Qed.
