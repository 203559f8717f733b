(** PropOrder.v -- property C73: the order in which directories list their entries. *)

From Coq Require Import String List NArith ZArith Bool Permutation.
From Verif Require Import Text Utf8 Json Base Syntax Parse Tree Interp Build Disk Cli.
From Verif Require Import SpecTree SpecSite SpecDisk SpecLocal SpecOrder.
From Verif Require Import Utf8Facts OrderFacts.
Import ListNotations.

(** For the examples: pages, posts, a list of the posts, and a content directory. *)
Example C73_host : host := Host (fun _ => false) (fun t => t) None (fun _ => None).
Example C73_file (name body : string) : text * ent := (lit name, EFile (enc (lit body))).
Example C73_nl : string := String (Ascii.ascii_of_nat 10) EmptyString.
Example C73_post (name title : string) : text * ent := C73_file name ("---" ++ C73_nl ++ "t: """ ++ title ++ """" ++ C73_nl ++ "---" ++ C73_nl ++ "hi")%string.
Example C73_list (options : string) : text * ent :=
  C73_file "list.html" ("{{ begin(""b"") }}{{ for($p, ""posts/""" ++ options ++ ") }}{{ $p.t }};{{ end(for) }}{{ end(""b"") }}").
Example C73_root : text * ent := C73_file "root.html" "<{{ insert(""b"") }}>".
Example C73_md : text * ent := C73_file "md.html" "{{ begin(""b"") }}{{ $self.content }}{{ end(""b"") }}".
Example C73_dir (l : list (text * ent)) : source_dir := SourceDir [lit "c"] (lit "c") (Some (EDir l)).
Example C73_st : stuart := stuart_new config_default [].
Example C73_run (l : list (text * ent)) : stuart * res error unit := build C73_host [] (lit "production") (C73_dir l) C73_st.
Example C73_page (o : string) : node := NFile (lit "list.html") (enc (lit o)) PNone None [lit "c"; lit "list.html"].

(** ** C73 *)
(** A loop over a directory visits its files in the order of the listing: the same files, listed in
    another order, give another page. *)
Theorem C73_order_refuted : exists l l' out out' c c', shuffled (EDir l) (EDir l') /\
  snd (C73_run l) = Ok tt /\ st_output (fst (C73_run l)) = Some (NDir (lit "c") out c) /\ snd (C73_run l') = Ok tt /\ st_output (fst (C73_run l')) = Some (NDir (lit "c") out' c') /\
  In (C73_page "<1;2;>") out /\ In (C73_page "<2;1;>") out'.
Proof.
  exists [C73_list ""; C73_md; (lit "posts", EDir [C73_post "a.md" "1"; C73_post "b.md" "2"]); C73_root].
  exists [C73_list ""; C73_md; (lit "posts", EDir [C73_post "b.md" "2"; C73_post "a.md" "1"]); C73_root]. do 4 eexists.
  split; [|split; [vm_compute; reflexivity|]; split; [vm_compute; reflexivity|]; split; [vm_compute; reflexivity|]; split; [vm_compute; reflexivity|]; split; left; reflexivity].
  eapply sh_dir; [|reflexivity]. repeat (constructor; [split; [reflexivity|]|]); try constructor; try apply shuffled_refl.
  eapply sh_dir; [|apply perm_swap]. repeat (constructor; [split; [reflexivity|apply shuffled_refl]|]). constructor.
Qed.
Print Assumptions C73_order_refuted.
(** If the loops over directories sort by a key of the front matter in which the files of that
    directory differ, then the order of the listings does not matter: the build succeeds with one if
    and only if it succeeds with the other, and gives the same tree up to the order of the entries. *)
Theorem C73_order_partial : forall h osenv mode d d' st e e', sd_ent d = Some e -> sd_ent d' = Some e' -> sd_path d' = sd_path d -> sd_name d' = sd_name d ->
  ent_distinct e -> shuffled e e' -> loops_sorted h (st_plugins st) e ->
  (snd (build h osenv mode d st) = Ok tt <-> snd (build h osenv mode d' st) = Ok tt) /\
  forall out, snd (build h osenv mode d st) = Ok tt -> st_output (fst (build h osenv mode d st)) = Some out ->
    exists out', st_output (fst (build h osenv mode d' st)) = Some out' /\ reordered out out'.
Proof. exact order_matters_not. Qed.
Print Assumptions C73_order_partial.
(** Even then two sources of one page compete: the one that is listed last is published. *)
Theorem C73_saved_refuted : exists l l' d d' , shuffled (EDir l) (EDir l') /\ loops_sorted C73_host [] (EDir l) /\ snd (C73_run l) = Ok tt /\ snd (C73_run l') = Ok tt /\
  save None (fst (C73_run l)) [lit "out"] (EDir []) = (d, Ok tt) /\ save None (fst (C73_run l')) [lit "out"] (EDir []) = (d', Ok tt) /\
  what [lit "out"; lit "a"; lit "index.html"] d = KFile (enc (lit "<md>")) /\ what [lit "out"; lit "a"; lit "index.html"] d' = KFile (enc (lit "<html>")).
Proof.
  exists [C73_file "a.html" "{{ begin(""b"") }}html{{ end(""b"") }}"; C73_file "a.md" "md"; C73_md; C73_root].
  exists [C73_file "a.md" "md"; C73_file "a.html" "{{ begin(""b"") }}html{{ end(""b"") }}"; C73_md; C73_root]. do 2 eexists.
  split; [eapply sh_dir; [|apply perm_swap]; repeat (constructor; [split; [reflexivity|apply shuffled_refl]|]); constructor|].
  split; [|split; [vm_compute; reflexivity|]; split; [vm_compute; reflexivity|]; split; [vm_compute; reflexivity|]; split; [vm_compute; reflexivity|]; split; vm_compute; reflexivity].
  apply sorted_if. intros name b t p toks f l loc I1 X U Pt It _. exfalso.
  repeat (destruct I1 as [I1|I1]; [injection I1 as <- <-; try discriminate X; vm_compute in U; injection U as <-; vm_compute in Pt; injection Pt as <-;
    repeat (destruct It as [It|It]; [discriminate It|]); destruct It|]). destruct I1.
Qed.
Print Assumptions C73_saved_refuted.
(** With different targets, outputs that are the same up to the order are saved as the same files. *)
Theorem C73_saved_partial : forall f f' st st' p d1 d1' d2 d2' out out' ch l,
  st_output st = Some out -> st_output st' = Some out' -> st_config st' = st_config st -> reordered out out' ->
  n_children out = Some ch -> saves_all (st_config st) [] ch l -> no_overwrite l -> ent_distinct d1 -> ent_distinct d2 ->
  save f st p d1 = (d1', Ok tt) -> save f' st' p d2 = (d2', Ok tt) -> forall q, what (p ++ q) d2' = what (p ++ q) d1'.
Proof. exact saved_alike. Qed.
Print Assumptions C73_saved_partial.

(** A page with the titles of two posts, sorted by title: the listing of the posts does not matter. *)
Example C73_sorted (posts : list (text * ent)) : list (text * ent) := [C73_list ", sortby=$p.t"; C73_md; (lit "posts", EDir posts); C73_root].
Example C73_a : text * ent := C73_post "a.md" "1".
Example C73_b : text * ent := C73_post "b.md" "2".
Example C73_shuffled : shuffled (EDir (C73_sorted [C73_a; C73_b])) (EDir (C73_sorted [C73_b; C73_a])).
Proof.
  eapply sh_dir; [|reflexivity]. repeat (constructor; [split; [reflexivity|]|]); try constructor; try apply shuffled_refl.
  eapply sh_dir; [|apply perm_swap]. repeat (constructor; [split; [reflexivity|apply shuffled_refl]|]). constructor.
Qed.
Example C73_distinct : ent_distinct (EDir (C73_sorted [C73_a; C73_b])).
Proof. repeat constructor; vm_compute; intuition discriminate. Qed.
Example C73_apart f : ff_sort f = Some (lit "p.t") -> forall x y, (x, y) = (C73_a, C73_b) \/ (x, y) = (C73_b, C73_a) -> forall b1 b2, snd x = EFile b1 -> snd y = EFile b2 -> told_apart f b1 b2.
Proof.
  intros S x y E b1 b2 B1 B2. exists (lit "p"), (lit "t"). split; [exact S|]. split; [vm_compute; intuition discriminate|]. split; [vm_compute; intuition discriminate|]. split; [discriminate|]. split; [discriminate|].
  intros v1 v2 F1 F2. destruct E as [E|E]; injection E as -> ->; injection B1 as <-; injection B2 as <-;
    (eapply (front_key_value (fun _ => false) [] []) in F1; [|vm_compute; reflexivity|vm_compute; reflexivity]); (eapply (front_key_value (fun _ => false) [] []) in F2; [|vm_compute; reflexivity|vm_compute; reflexivity]);
    vm_compute in F1, F2; subst; discriminate.
Qed.
Example C73_loops : loops_sorted C73_host [] (EDir (C73_sorted [C73_a; C73_b])).
Proof.
  apply sorted_if. intros name b t p toks f l loc I1 X U Pt It Il k1 b1 k2 b2 J1 J2 X1 X2 Ne.
  assert (S : ff_sort f = Some (lit "p.t")).
  { repeat (destruct I1 as [I1|I1]; [injection I1 as <- <-; try discriminate X; vm_compute in U; injection U as <-; vm_compute in Pt; injection Pt as <-;
      repeat (destruct It as [It|It]; [try discriminate It; injection It as <- _; reflexivity|]); destruct It|]). destruct I1. }
  repeat (destruct Il as [<-|Il]; [repeat (destruct J1 as [J1|J1]; [try discriminate J1; injection J1 as <- <-; try discriminate X1; repeat (destruct J2 as [J2|J2]; [try discriminate J2; injection J2 as <- <-; try discriminate X2;
    try (now destruct Ne); first [apply (C73_apart f S C73_a C73_b (or_introl eq_refl) _ _ eq_refl eq_refl)|apply (C73_apart f S C73_b C73_a (or_intror eq_refl) _ _ eq_refl eq_refl)]|]); destruct J2|]); destruct J1|]). destruct Il.
Qed.
Example C73_any l l' : ent_distinct (EDir l) -> shuffled (EDir l) (EDir l') -> loops_sorted C73_host [] (EDir l) -> forall out, snd (C73_run l) = Ok tt -> st_output (fst (C73_run l)) = Some out ->
  exists out', st_output (fst (C73_run l')) = Some out' /\ reordered out out'.
Proof. intros D S L. exact (proj2 (C73_order_partial C73_host [] (lit "production") (C73_dir l) (C73_dir l') C73_st _ _ eq_refl eq_refl eq_refl eq_refl D S L)). Qed.
Example C73_case : exists out out', st_output (fst (C73_run (C73_sorted [C73_a; C73_b]))) = Some out /\ st_output (fst (C73_run (C73_sorted [C73_b; C73_a]))) = Some out' /\ reordered out out' /\
  exists ch, n_children out' = Some ch /\ In (C73_page "<1;2;>") ch.
Proof.
  pose proof (C73_any _ _ C73_distinct C73_shuffled C73_loops) as X.
  assert (Bd : snd (C73_run (C73_sorted [C73_a; C73_b])) = Ok tt) by (vm_compute; reflexivity).
  assert (O : exists out, st_output (fst (C73_run (C73_sorted [C73_a; C73_b]))) = Some out) by (eexists; vm_compute; reflexivity). destruct O as [out O].
  destruct (X out Bd O) as (out' & O' & R). exists out, out'. split; [exact O|]. split; [exact O'|]. split; [exact R|]. clear - O'. vm_compute in O'. injection O' as <-. eexists. split; [reflexivity|]. left. reflexivity.
Qed.
