(** PropRegress.v -- property C97: after a change of one file only what depends on it can be to blame. *)

From Coq Require Import String List NArith ZArith Bool.
From Verif Require Import Text Utf8 Json Base Syntax Parse Tree Interp Build.
From Verif Require Import SpecScope SpecPage SpecTemplate SpecTree SpecSite SpecReads SpecBlame SpecLocal SpecNeeds SpecRegress.
From Verif Require Import Utf8Facts NeedsFacts RegressFacts.
Import ListNotations.

(** ** C97 *)
(** A site builds; one file is added, removed or edited, and the build fails. Then the error is that of
    reading this file, or it is that of a page that depends on this file. *)
Theorem C97_blame : forall h osenv mode d d' st st' e e' qs qn x,
  snd (build h osenv mode d st) = Ok tt -> sd_ent d = Some e -> snd (build h osenv mode d' st') = Err x -> sd_ent d' = Some e' ->
  sd_path d' = sd_path d -> sd_name d' = sd_name d -> st_plugins st' = st_plugins st -> plugins_give plugin_ok (st_plugins st) -> ent_distinct e -> changed qs qn e e' ->
  (exists b, ent_at e' (qs ++ [qn]) (EFile b) /\ ~ sound h (st_plugins st) (sd_path d ++ qs ++ [qn]) qn b /\ faulty h (st_plugins st) (sd_path d ++ qs ++ [qn]) qn b x) \/
  exists ks name, fault_of h (st_plugins st) (sd_path d) e' ks name x /\ ~ untouched h (st_plugins st) e' qs qn ks name.
Proof. exact changed_blame. Qed.
Print Assumptions C97_blame.
(** If no other file depends on it, the error is its own. *)
Theorem C97_own : forall h osenv mode d d' st st' e e' qs qn x,
  snd (build h osenv mode d st) = Ok tt -> sd_ent d = Some e -> snd (build h osenv mode d' st') = Err x -> sd_ent d' = Some e' ->
  sd_path d' = sd_path d -> sd_name d' = sd_name d -> st_plugins st' = st_plugins st -> plugins_give plugin_ok (st_plugins st) -> ent_distinct e -> changed qs qn e e' ->
  (forall ks name b, ent_at e' (ks ++ [name]) (EFile b) -> ks ++ [name] <> qs ++ [qn] -> untouched h (st_plugins st) e' qs qn ks name) ->
  exists b, ent_at e' (qs ++ [qn]) (EFile b) /\
    (faulty h (st_plugins st) (sd_path d ++ qs ++ [qn]) qn b x \/ fault_of h (st_plugins st) (sd_path d) e' qs qn x).
Proof. exact changed_own. Qed.
Print Assumptions C97_own.
(** And if moreover the file has been removed, or is one that is only copied, the site still builds,
    whatever the plugins do. *)
Theorem C97_safe : forall h osenv mode d d' st st' e e' qs qn,
  snd (build h osenv mode d st) = Ok tt -> sd_ent d = Some e -> sd_ent d' = Some e' ->
  sd_path d' = sd_path d -> sd_name d' = sd_name d -> st_plugins st' = st_plugins st -> ent_distinct e -> changed qs qn e e' ->
  (forall b, ent_at e' (qs ++ [qn]) (EFile b) -> inert h (st_plugins st) qn b) ->
  (forall ks name b, ent_at e' (ks ++ [name]) (EFile b) -> ks ++ [name] <> qs ++ [qn] -> untouched h (st_plugins st) e' qs qn ks name) ->
  snd (build h osenv mode d' st') = Ok tt.
Proof. exact changed_safe. Qed.
Print Assumptions C97_safe.

(** A site with a page, an image that may be missing and a template that may be missing. *)
Example C97_host : host := Host (fun _ => false) (fun t => t) None (fun _ => None).
Example C97_page : string := "{{ begin(""b"") }}hi{{ end(""b"") }}".
Example C97_bad : string := "{{ begin(""b"") }}{{ $x }}{{ end(""b"") }}".
Example C97_root : bytes := enc (lit "<{{ insert(""b"") }}>").
Example C97_content (page : string) (logo root : option bytes) : ent :=
  EDir ([(lit "about.html", EFile (enc (lit page)))] ++ maybe_file (lit "logo.png") logo ++ maybe_file (lit "root.html") root).
Example C97_dir (page : string) (logo root : option bytes) : source_dir := SourceDir [lit "c"] (lit "c") (Some (C97_content page logo root)).
Example C97_st : stuart := stuart_new config_default [].
Example C97_builds : snd (build C97_host [] (lit "production") (C97_dir C97_page None (Some C97_root)) C97_st) = Ok tt.
Proof. vm_compute. reflexivity. Qed.
Example C97_distinct page logo root : ent_distinct (C97_content page logo root).
Proof. destruct logo, root; repeat constructor; vm_compute; intuition discriminate. Qed.
Example C97_no_plugins : plugins_give plugin_ok (st_plugins C97_st).
Proof. intros pl f raw g []. Qed.
(** No file asks for any other. *)
Example C97_asks page logo ks n s : In page [C97_page; C97_bad] -> ~ asks_for C97_host [] (C97_content page logo (Some C97_root)) (ks ++ [n]) s.
Proof.
  intros Hp Q. assert (Q' := Q). destruct Q' as (body & ts & k & (dirs & name & b & t & Ek & A & _) & _). apply app_inj_tail in Ek. destruct Ek as [<- <-].
  assert (ks = []) as ->. { inversion A as [|l k1 x ks' ? I A1]; subst. assert (F : exists b', x = EFile b') by (destruct logo; cbn in I; repeat (destruct I as [I|I]; [injection I as _ <-; eauto|]); destruct I).
    destruct F as [b' ->]. inversion A1; subst. match goal with H : _ :: _ = ks ++ [n] |- _ => rename H into Ek end. destruct ks as [|? ks]; [reflexivity|]. injection Ek as _ Ek. now destruct ks. }
  cbn [app] in A, Q. inversion A as [|l k1 x ks' ? I A1]; subst. inversion A1; subst. clear A A1.
  assert (D := C97_distinct page logo (Some C97_root)).
  assert (K : n = lit "about.html" \/ n = lit "logo.png" \/ n = lit "root.html").
  { destruct logo; cbn [C97_content maybe_file app] in I; repeat (destruct I as [I|I]; [injection I as <- _; auto|]); destruct I. }
  destruct K as [-> |[-> | ->]].
  - assert (P : exists toks, parse_html (h_ext C97_host) [] [] (lit page) = Ok toks /\ forall t0 s0, In t0 (map t_inner toks) -> ~ asks t0 s0).
    { destruct Hp as [<-|[<-|[]]]; (eexists; split; [vm_compute; reflexivity|]; intros t0 s0 J; cbn in J; repeat (destruct J as [<-|J]; [intros X; inversion X|]); destruct J). }
    destruct P as (toks & P & NA). eapply (file_asks_only _ _ _ [] _ (enc (lit page)) (lit page)) in Q as (k0 & J & X); [exact (NA _ _ J X)|exact D| | |apply TreeFacts.extension_spec; reflexivity|exact P].
    + econstructor; [left; reflexivity|constructor].
    + destruct Hp as [<-|[<-|[]]]; vm_compute; reflexivity.
  - destruct Q as (body' & ts' & k' & (dirs' & name' & b' & t' & Ek' & _ & _ & W) & _). destruct dirs' as [|? [|? ?]]; try discriminate Ek'. injection Ek' as <-.
    destruct W as [[W _]|[W _]]; apply TreeFacts.extension_spec in W; discriminate W.
  - eapply (file_asks_only _ _ _ [] _ C97_root) in Q as (k0 & J & X); [|exact D| |vm_compute; reflexivity|apply TreeFacts.extension_spec; reflexivity|vm_compute; reflexivity].
    + cbn in J. repeat (destruct J as [<-|J]; [inversion X|]). destruct J.
    + destruct logo; (econstructor; [|constructor]); cbn; auto.
Qed.
(** Adding the image leaves the site building. *)
Example C97_logo : snd (build C97_host [] (lit "production") (C97_dir C97_page (Some (enc (lit "png"))) (Some C97_root)) C97_st) = Ok tt.
Proof.
  apply (C97_safe C97_host [] (lit "production") (C97_dir C97_page None (Some C97_root)) (C97_dir C97_page (Some (enc (lit "png"))) (Some C97_root)) C97_st C97_st (C97_content C97_page None (Some C97_root)) (C97_content C97_page (Some (enc (lit "png"))) (Some C97_root)) [] (lit "logo.png")
    C97_builds eq_refl eq_refl eq_refl eq_refl eq_refl (C97_distinct _ _ _)).
  - apply (cg_here (lit "logo.png") None (Some (enc (lit "png"))) [_] [_]). vm_compute. intuition discriminate.
  - intros b _. apply in_plain. intros ext X. apply TreeFacts.extension_spec in X. change (extension (lit "logo.png")) with (Some (lit "png")) in X. injection X as <-.
    split; [|intros np []]. vm_compute. intuition discriminate.
  - intros ks name b _ Ne. apply no_needs_untouched; [|exact Ne|intros [X|X]; discriminate X]. intros ks' n s. apply C97_asks. now left.
Qed.
(** An edit of the page that makes the build fail is the fault of the page. *)
Example C97_edit : snd (build C97_host [] (lit "production") (C97_dir C97_bad None (Some C97_root)) C97_st) = Err (E_Process (TB [lit "c"; lit "about.html"] 1 19 (XE_UndefinedVariable (lit "x")))).
Proof. vm_compute. reflexivity. Qed.
Example C97_edit_own : fault_of C97_host [] [lit "c"] (C97_content C97_bad None (Some C97_root)) [] (lit "about.html")
  (E_Process (TB [lit "c"; lit "about.html"] 1 19 (XE_UndefinedVariable (lit "x")))).
Proof.
  destruct (C97_own C97_host [] (lit "production") (C97_dir C97_page None (Some C97_root)) (C97_dir C97_bad None (Some C97_root)) C97_st C97_st (C97_content C97_page None (Some C97_root)) (C97_content C97_bad None (Some C97_root)) [] (lit "about.html") _
    C97_builds eq_refl C97_edit eq_refl eq_refl eq_refl eq_refl C97_no_plugins (C97_distinct _ _ _)) as (b & _ & [F|F]).
  - apply (cg_here (lit "about.html") (Some (enc (lit C97_page))) (Some (enc (lit C97_bad))) [] [_]). vm_compute. intuition discriminate.
  - intros ks name b _ Ne. apply no_needs_untouched; [|exact Ne|intros [X|X]; discriminate X]. intros ks' n s. apply C97_asks. right. now left.
  - inversion F.
  - exact F.
Qed.
(** Removing the template makes the build fail with an error of the page, which depends on it. *)
Example C97_remove : snd (build C97_host [] (lit "production") (C97_dir C97_page None None) C97_st) = Err (E_Process (TB [lit "c"; lit "about.html"] 0 0 XE_MissingHtmlRoot)).
Proof. vm_compute. reflexivity. Qed.
Example C97_remove_blame : exists ks name, fault_of C97_host [] [lit "c"] (C97_content C97_page None None) ks name (E_Process (TB [lit "c"; lit "about.html"] 0 0 XE_MissingHtmlRoot)) /\
  ~ untouched C97_host [] (C97_content C97_page None None) [] (lit "root.html") ks name.
Proof.
  destruct (C97_blame C97_host [] (lit "production") (C97_dir C97_page None (Some C97_root)) (C97_dir C97_page None None) C97_st C97_st (C97_content C97_page None (Some C97_root)) (C97_content C97_page None None) [] (lit "root.html") _
    C97_builds eq_refl C97_remove eq_refl eq_refl eq_refl eq_refl C97_no_plugins (C97_distinct _ _ _)) as [(b & _ & _ & F)|R].
  - apply (cg_here (lit "root.html") (Some C97_root) None [_] []). vm_compute. intuition discriminate.
  - inversion F.
  - exact R.
Qed.
