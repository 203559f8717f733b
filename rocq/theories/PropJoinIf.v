(** PropJoinIf.v -- property C91: neighbouring conditionals with the same condition may be joined. *)

From Coq Require Import String List NArith ZArith Bool Lia.
From Verif Require Import Text Utf8 Json Base Syntax Parse Tree Interp Build Disk Cli.
From Verif Require Import SpecScope SpecUtf8 SpecRender SpecTemplate SpecLoop SpecBlocks SpecTree SpecSite SpecExact SpecSwap SpecJoinIf.
From Verif Require Import Utf8Facts SiteFacts PropSite SwapFacts SwapLaws JoinIfFacts.
Import ListNotations.

(** What the first of the two prints if the condition holds may hold no import and no plugin
    function. *)
Theorem C91_join : forall h J P c a b, Forall binds_nothing a ->
  interchangeable (h_date h) J P [BIf c a; BIf c b] [BIf c (a ++ b)].
Proof. exact merge_if. Qed.
Print Assumptions C91_join.
(** The same with [else]. *)
Theorem C91_join_else : forall h J P c a b a' b', Forall binds_nothing a -> Forall binds_nothing a' ->
  interchangeable (h_date h) J P [BIfElse c a a'; BIfElse c b b'] [BIfElse c (a ++ b) (a' ++ b')].
Proof. exact merge_ifelse. Qed.
Print Assumptions C91_join_else.

(** One conditional in place of two, the variable set and then not. *)
Example C91_joined J P : interchangeable None J P
  [BIf (TDefined (lit "t")) [BText (lit "<"); BVar (lit "t")]; BIf (TDefined (lit "t")) [BText (lit ">")]]
  [BIf (TDefined (lit "t")) [BText (lit "<"); BVar (lit "t"); BText (lit ">")]].
Proof. apply (C91_join C61_host J P (TDefined (lit "t")) [BText (lit "<"); BVar (lit "t")] [BText (lit ">")]). now repeat constructor. Qed.
Example C91_joined_prints J P :
  prints None J P [BIf (TDefined (lit "t")) [BText (lit "<"); BVar (lit "t"); BText (lit ">")]] [[(lit "t", VStr (lit "A"))]] [] (enc (lit "<A>")) [] [] /\
  prints None J P [BIf (TDefined (lit "t")) [BText (lit "<"); BVar (lit "t"); BText (lit ">")]] [[(lit "u", VStr (lit "A"))]] [] [] [] [].
Proof.
  split.
  - apply (pr_if None J P _ _ [] _ [] (enc (lit "<A>")) [] [] [] [] []).
    + apply dc_defined with (VStr (lit "A")); [apply value_get; vm_compute; reflexivity|discriminate].
    + now repeat constructor.
    + apply (pr_simple None J P (BText (lit "<")) _ [] [[(lit "t", VStr (lit "A"))]] [] (enc (lit "<")) [] (enc (lit "A>")) [] []);
        [apply sh_text, decoding; vm_compute; reflexivity|].
      apply (pr_simple None J P (BVar (lit "t")) _ [] [[(lit "t", VStr (lit "A"))]] [] (enc (lit "A")) [] (enc (lit ">")) [] []);
        [apply sh_var with (lit "A"); [apply value_get; vm_compute; reflexivity|apply decoding; vm_compute; reflexivity]|].
      apply (pr_simple None J P (BText (lit ">")) _ [] [[(lit "t", VStr (lit "A"))]] [] (enc (lit ">")) [] [] [] []);
        [apply sh_text, decoding; vm_compute; reflexivity|constructor].
    + constructor.
  - apply pr_skip; [|now repeat constructor|constructor]. apply dc_null. intros x V. apply value_get in V. vm_compute in V. discriminate V.
Qed.
(** With an import in the first it is not so: joined, the second sees the variable. *)
Example C91_import_not_joined : let J := fun f v => f = lit "f.json" /\ v = VStr (lit "A") in
  ~ interchangeable None J (fun _ _ => False)
    [BIf (TDefined (lit "t")) [BImport (lit "x") (lit "f.json")]; BIf (TDefined (lit "t")) [BVar (lit "x")]]
    [BIf (TDefined (lit "t")) [BImport (lit "x") (lit "f.json"); BVar (lit "x")]].
Proof.
  intros J (_ & _ & Q).
  destruct (Q [[(lit "t", VStr (lit "A"))]] [] (enc (lit "A")) [] []) as (_ & B).
  assert (H : prints None J (fun _ _ => False) [BIf (TDefined (lit "t")) [BImport (lit "x") (lit "f.json")]; BIf (TDefined (lit "t")) [BVar (lit "x")]] [[(lit "t", VStr (lit "A"))]] [] (enc (lit "A")) [] []).
  { apply B. apply (pr_if None J _ _ _ [] _ [] (enc (lit "A")) [(lit "x", VStr (lit "A"))] [] [] [] []).
    - apply dc_defined with (VStr (lit "A")); [apply value_get; vm_compute; reflexivity|discriminate].
    - now repeat constructor.
    - apply (pr_simple None J _ (BImport (lit "x") (lit "f.json")) _ [] [[(lit "t", VStr (lit "A"))]] [] [] [(lit "x", VStr (lit "A"))] (enc (lit "A")) [] []);
        [eapply sh_import; [reflexivity|intros []|now split]|].
      apply (pr_simple None J _ (BVar (lit "x")) _ [(lit "x", VStr (lit "A"))] [[(lit "t", VStr (lit "A"))]] [] (enc (lit "A")) [] [] [] []);
        [apply sh_var with (lit "A"); [apply value_get; vm_compute; reflexivity|apply decoding; vm_compute; reflexivity]|constructor].
    - constructor. }
  assert (D : ~ decided [[(lit "t", VStr (lit "A"))]] (TDefined (lit "t")) false).
  { intros X. inversion X as [|? N| |]; subst. specialize (N (VStr (lit "A"))). discriminate N. apply value_get. vm_compute. reflexivity. }
  inversion H; subst; noshow; try contradiction.
  match goal with K : SpecSite.prints _ _ _ [BIf _ [BVar _]] _ _ _ _ _ |- _ => inversion K; subst; noshow; try contradiction end.
  match goal with K : SpecSite.prints _ _ _ [BVar _] _ _ _ _ _ |- _ => inversion K; subst end.
  match goal with K : shows _ _ _ _ (BVar _) _ _ |- _ => inversion K; subst end.
  match goal with V : value_of _ _ _ |- _ => apply value_get in V; vm_compute in V; discriminate V end.
Qed.
