(** PropReads.v -- which directories of sources can be read (C83), and when a build can panic (C36). *)

From Coq Require Import String List NArith ZArith Bool.
From Verif Require Import Text Utf8 Json Base Syntax Parse Tree Interp Build SpecScope SpecChars SpecPage SpecTree SpecSite SpecReads TreeFacts ReadsFacts.
Import ListNotations.

(** Directories for the examples: one that can be read, one whose third entry cannot, and one that
    makes the parser break down. *)
Example host0 : host := Host (fun _ => false) (fun t => t) None (fun t => if text_eqb t (lit "{}") then Some (VObj []) else None).
Example good : list (text * ent) :=
  [(lit "post.md", EFile (enc (lit "---" ++ [c_lf] ++ lit "title: ""T""" ++ [c_lf] ++ lit "---" ++ [c_lf] ++ lit "Hello {{ $self.title }}")));
   (lit "root.html", EFile (enc (lit "[{{ insert(""b"") }}]")));
   (lit "sub", EDir [(lit "style.css", EFile (enc (lit "p {{"))); (lit "d.json", EFile (enc (lit "{}")))])].
Example bad : list (text * ent) := good ++ [(lit "x", EDir [(lit "e.json", EFile (enc (lit "{")))]); (lit "z.html", EFile (enc (lit "{{")))].
Example worse : list (text * ent) := good ++ [(lit "y", EDir [(lit "q.md", EFile (enc (lit "{{ f(1, """)))])].
Example dir_of (l : list (text * ent)) : source_dir := SourceDir [lit "c"] (lit "c") (Some (EDir l)).

(** ** C36: apart from the two ways of C36_total_refuted and C36_quote_refuted nothing makes a build
    panic; it always ends. *)
Theorem C36_total_partial : forall h osenv mode d st, plugins_give (fun p => plugin_ok p /\ plugin_total p) (st_plugins st) ->
  (forall e ks k b, sd_ent d = Some e -> ent_at e (ks ++ [k]) (EFile b) -> ~ breaking h (st_plugins st) k b) ->
  (forall input, node_new h (st_plugins st) true (sd_path d) (sd_name d) (sd_ent d) = Ok input -> bodies_ready input) ->
  match snd (build h osenv mode d st) with Ok _ | Err _ => True | _ => False end.
Proof. exact build_ends_well. Qed.
Print Assumptions C36_total_partial.
(** A directory with a file on which the parser breaks down never builds, and if that file is the first
    that cannot be read the build panics. *)
Theorem C36_breaking : forall h osenv mode d st e ks k b, sd_ent d = Some e -> ent_at e (ks ++ [k]) (EFile b) ->
  breaking h (st_plugins st) k b -> snd (build h osenv mode d st) <> Ok tt.
Proof. exact build_breaks. Qed.
Print Assumptions C36_breaking.
Theorem C36_first : forall h osenv mode d st l, sd_ent d = Some (EDir l) ->
  stops h (st_plugins st) (sd_path d) (sd_name d) (EDir l) None -> exists q, build h osenv mode d st = (st, Panic q).
Proof. exact build_panics_first. Qed.
Print Assumptions C36_first.
Example C36_case : forall input, create_from host0 [] true [lit "c"] (lit "c") (EDir good) = Ok input -> bodies_ready input.
Proof.
  intros input E. vm_compute in E. injection E as <-. intros name b m meta src J.
  repeat match goal with
  | H : inside _ (NDir _ _ _) |- _ => inversion H; clear H; subst
  | H : In _ (_ :: _) |- _ => destruct H as [<-|H]
  | H : In _ [] |- _ => destruct H
  | H : inside _ (NFile _ _ _ _ _) |- _ => inversion H; clear H; subst
  end; intros f l nm ch s file b' m' meta' s' [X|[X|[]]]; discriminate X.
Qed.
Example C36_good : forall ks k b, ent_at (EDir good) (ks ++ [k]) (EFile b) -> ~ breaking host0 [] k b.
Proof.
  intros ks k b A. eapply sound_not_breaking. eapply sound_inside; [|exact A].
  assert (L : exists l, Some (EDir good) = Some (EDir l) /\ sound_tree host0 [] [lit "c"] (lit "c") (EDir l)).
  { apply loads_exactly. eexists. vm_compute. reflexivity. }
  destruct L as (l & E & S). injection E as <-. exact S.
Qed.
Example C36_worse : stops host0 [] [lit "c"] (lit "c") (EDir worse) None /\ breaking host0 [] (lit "q.md") (enc (lit "{{ f(1, """)).
Proof.
  assert (L : exists l, Some (EDir worse) = Some (EDir l) /\ stops host0 [] [lit "c"] (lit "c") (EDir l) None).
  { apply panics_first. eexists. vm_compute. reflexivity. }
  destruct L as (l & E & S). injection E as <-. split; [exact S|].
  destruct (file_cases host0 [] [] (lit "q.md") (enc (lit "{{ f(1, """))) as [[_ [n A]]|[(x & _ & A)|[A _]]]; [vm_compute in A; discriminate..|exact A].
Qed.

(** ** C83: a directory is read exactly when every file of it can be read ... *)
Theorem C83_loads : forall h ps p name e,
  (exists n, node_new h ps true p name e = Ok n) <-> exists l, e = Some (EDir l) /\ sound_tree h ps p name (EDir l).
Proof. exact loads_exactly. Qed.
Print Assumptions C83_loads.
(** ... so everything in a site that was built was in order, ... *)
Theorem C83_built : forall h osenv mode d st, snd (build h osenv mode d st) = Ok tt ->
  exists l, sd_ent d = Some (EDir l) /\ sound_tree h (st_plugins st) (sd_path d) (sd_name d) (EDir l).
Proof. exact build_sound. Qed.
Print Assumptions C83_built.
(** ... and otherwise the build ends at once, with the error of the first file that cannot be read. *)
Theorem C83_first : forall h osenv mode d st l, sd_ent d = Some (EDir l) ->
  ~ sound_tree h (st_plugins st) (sd_path d) (sd_name d) (EDir l) ->
  exists r, stops h (st_plugins st) (sd_path d) (sd_name d) (EDir l) r /\
    match r with Some x => build h osenv mode d st = (st, Err x) | None => exists q, build h osenv mode d st = (st, Panic q) end.
Proof. exact build_error_first. Qed.
Print Assumptions C83_first.
Example C83_case : sound_tree host0 [] [lit "c"] (lit "c") (EDir good) /\
  snd (build host0 [] [] (dir_of bad) (stuart_new config_default [])) = Err (E_Parse (TB [lit "c"; lit "x"; lit "e.json"] 0 0 PE_InvalidJson)) /\
  ~ sound_tree host0 [] [lit "c"] (lit "c") (EDir bad).
Proof.
  split; [|split].
  - assert (L : exists l, Some (EDir good) = Some (EDir l) /\ sound_tree host0 [] [lit "c"] (lit "c") (EDir l)).
    { apply C83_loads. eexists. vm_compute. reflexivity. }
    destruct L as (l & E & S). injection E as <-. exact S.
  - vm_compute. reflexivity.
  - intros S. destruct (proj2 (C83_loads host0 [] [lit "c"] (lit "c") (Some (EDir bad))) (ex_intro _ _ (conj eq_refl S))) as [n E].
    vm_compute in E. discriminate.
Qed.
