(** PropBlame.v -- every failed build blames a file of the sources, and the place is right (C84). *)

From Coq Require Import String List NArith ZArith Bool.
From Verif Require Import Text Utf8 Json Base Syntax Parse Tree Interp Build SpecChars SpecScope SpecTree SpecSite SpecReads SpecBlame BlameFacts.
Import ListNotations.

(** ** C84: a build fails because there is no content directory, or with the error of the first file
    that cannot be read, or with the error of a file that was read. *)
Theorem C84_blames : forall h osenv mode d st x, (forall e, sd_ent d = Some e -> ent_distinct e) ->
  plugins_give plugin_ok (st_plugins st) -> snd (build h osenv mode d st) = Err x ->
  ((forall l, sd_ent d <> Some (EDir l)) /\ x = E_Fs (FE_NotFound (sd_path d))) \/
  exists l, sd_ent d = Some (EDir l) /\
    (stops h (st_plugins st) (sd_path d) (sd_name d) (EDir l) (Some x) \/ file_fault h (st_plugins st) (sd_path d) (EDir l) x).
Proof. exact build_blames. Qed.
Print Assumptions C84_blames.

(** The same page with each kind of mistake: in its own text, in the template that it is put in, no
    template, and a block that is left open. *)
Example host1 : host := Host (fun _ => false) (fun t => t) None (fun _ => None).
Example site (own md root : string) : list (text * ent) :=
  [(lit "md.html", EFile (enc (lit "{{ begin(""main"") }}" ++ [c_lf] ++ lit md ++ lit "{{ end(""main"") }}")));
   (lit "root.html", EFile (enc (lit "[" ++ lit root ++ lit "{{ insert(""main"") }}]")));
   (lit "blog", EDir [(lit "post.md", EFile (enc (lit "---" ++ [c_lf] ++ lit "title: ""T""" ++ [c_lf] ++ lit "---" ++ [c_lf] ++ lit "Hello" ++ [c_lf] ++ lit own)))])].
Example of (l : list (text * ent)) : res error unit :=
  snd (build host1 [] [] (SourceDir [lit "c"] (lit "c") (Some (EDir l))) (stuart_new config_default [])).
Example post : path := [lit "c"; lit "blog"; lit "post.md"].
Example C84_case : of (site "" "" "") = Ok tt /\
  of (site "a {{ $x }}" "" "") = Err (E_Process (TB post 2 4 (XE_UndefinedVariable (lit "x")))) /\
  of (site "" "a {{ $x }}" "") = Err (E_Process (TB [lit "c"; lit "md.html"] 2 4 (XE_UndefinedVariable (lit "x")))) /\
  of (site "" "" "a {{ $x }}") = Err (E_Process (TB [lit "c"; lit "root.html"] 1 6 (XE_UndefinedVariable (lit "x")))) /\
  of (site "{{ begin(""q"") }}" "" "") = Err (E_Process (TB post 0 0 XE_StackError)) /\
  of (tl (site "" "" "")) = Err (E_Process (TB post 0 0 XE_MissingMarkdownRoot)) /\
  forall o m r e, Some (EDir (site o m r)) = Some e -> ent_distinct e.
Proof.
  do 6 (split; [vm_compute; reflexivity|]). intros o m r e E. injection E as <-. constructor.
  - cbn. repeat constructor; cbn; intuition discriminate.
  - repeat constructor. cbn. tauto.
Qed.
