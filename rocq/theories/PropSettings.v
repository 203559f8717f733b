(** PropSettings.v -- what the settings of a manifest change (C98). *)

From Coq Require Import String List NArith ZArith Bool.
From Verif Require Import Text Utf8 Json Base Syntax Parse Tree Interp Build Disk Cli SpecScope SpecTree SpecDisk SpecProject SpecSettings.
From Verif Require Import SettingsFacts.
Import ListNotations.

(** ** C98 *)
(** No setting changes whether the site can be built, the error, or the pages. *)
Theorem C98_build : forall h osenv mode d st cf cf',
  let b := build h osenv mode d (with_config cf st) in let b' := build h osenv mode d (with_config cf' st) in
  snd b' = snd b /\ option_map bare (st_output (fst b')) = option_map bare (st_output (fst b)) /\
  (cf_meta cf' = cf_meta cf -> st_output (fst b') = st_output (fst b)).
Proof. exact settings_build. Qed.
Print Assumptions C98_build.
(** The name and the author are nowhere but in metadata.json. *)
Theorem C98_titled : forall m f name author cf c d, cf_meta cf = false ->
  leaves m f (configured (titled name author cf) c) d = leaves m f (configured cf c) d.
Proof. exact titled_leaves. Qed.
Print Assumptions C98_titled.
Theorem C98_titled_meta : forall m f name author cf c d, idle_after m c ->
  let r := leaves m f (configured cf c) d in let r' := leaves m f (configured (titled name author cf) c) d in
  snd r' = snd r /\ forall q, q <> metadata_file c -> what q (fst r') = what q (fst r).
Proof. exact titled_meta. Qed.
Print Assumptions C98_titled_meta.
(** With [save_metadata] there is metadata.json and nothing else is different. *)
Theorem C98_metadata : forall m f cf c d, idle_after m c ->
  let r := leaves m f (configured (with_metadata false cf) c) d in let r' := leaves m f (configured (with_metadata true cf) c) d in
  (snd r <> COk -> r' = r) /\ (forall q, ~ above (metadata_file c) q -> what q (fst r') = what q (fst r)).
Proof. exact metadata_leaves. Qed.
Print Assumptions C98_metadata.
(** [strip_extensions] moves the pages and leaves the static files; nothing appears, vanishes or changes. *)
Theorem C98_strip : forall m f cf c d d1 d0 d0', ran (m_script m) (cx_pre c) d d1 -> idle_after m c -> sound f (configured cf c) d1 ->
  leaves m f (configured (stripping false cf) c) d = (d0, COk) -> leaves m f (configured (stripping true cf) c) d = (d0', COk) ->
  (forall q1 q2 q b1 b2, what (output_dir c ++ q1) d0 = KFile b1 -> what (output_dir c ++ q2) d0 = KFile b2 -> goes c d1 q1 q -> goes c d1 q2 q -> q1 = q2) ->
  (forall q b, what (output_dir c ++ q) d0' = KFile b <-> exists q0, what (output_dir c ++ q0) d0 = KFile b /\ goes c d1 q0 q) /\
  (forall q, ~ above (output_dir c) q -> what q d0' = what q d0).
Proof. exact strip_builds. Qed.
Print Assumptions C98_strip.
(** Without [save_data_files] the data files are left out and nothing else is different. *)
Theorem C98_data : forall m f cf c d d1 d0 d0', ran (m_script m) (cx_pre c) d d1 -> idle_after m c -> sound f (configured cf c) d1 ->
  leaves m f (configured (with_data true cf) c) d = (d0, COk) -> leaves m f (configured (with_data false cf) c) d = (d0', COk) ->
  (forall q b, what (output_dir c ++ q) d0' = KFile b <-> what (output_dir c ++ q) d0 = KFile b /\ ~ data_file q) /\
  (forall q, ~ above (output_dir c) q -> what q d0' = what q d0).
Proof. exact data_builds. Qed.
Print Assumptions C98_data.

(** A site with a page, a data file and a static page. *)
Definition C98_machine : machine :=
  Machine (Host (fun _ => false) (fun t => t) None (fun _ => Some VNull)) (fun _ => lit "m") [] (fun _ d => (d, ScriptOk)).
Definition C98_disk : ent := EDir
  [(lit "content", EDir [(lit "root.html", EFile (lit "{{ insert(""b"") }}"));
                         (lit "index.html", EFile (lit "{{ begin(""b"") }}i{{ end(""b"") }}"));
                         (lit "about.html", EFile (lit "{{ begin(""b"") }}a{{ end(""b"") }}"));
                         (lit "d.json", EFile (lit "null"))]);
   (lit "static", EDir [(lit "page.html", EFile (lit "s"))])].
Definition C98_context : context := init (RawConfig (lit "n") None None) [] [] (lit "dist") (lit "production") C98_disk.
Definition C98_after (cf : config) : ent := fst (leaves C98_machine no_faults (configured cf C98_context) C98_disk).
Definition C98_config : config := Config (lit "n") None true true false.
Example C98_sound : ran (m_script C98_machine) (cx_pre C98_context) C98_disk C98_disk /\ idle_after C98_machine C98_context /\
  sound no_faults (configured C98_config C98_context) C98_disk.
Proof.
  split; [constructor|]. split; [now intros n d _|]. split; [|split; [|split; [discriminate|discriminate]]].
  - repeat (first [apply ed_file|apply ed_dir|apply Forall_cons|apply Forall_nil|apply NoDup_cons|apply NoDup_nil|(vm_compute; intuition discriminate)]).
  - split; [|split; [|split; [|reflexivity]]]; intros e E; vm_compute in E; try discriminate; injection E as <-;
      repeat (first [apply al_file|apply al_dir|apply Forall_cons|apply Forall_nil|split|(vm_compute; intuition discriminate)]).
Qed.
Definition C98_plain : ent := C98_after (stripping false C98_config).
Example C98_kinds : snd (leaves C98_machine no_faults (configured (stripping false C98_config) C98_context) C98_disk) = COk /\
  snd (leaves C98_machine no_faults (configured (stripping true C98_config) C98_context) C98_disk) = COk /\
  snd (leaves C98_machine no_faults (configured (with_data false C98_config) C98_context) C98_disk) = COk /\
  (forall b, In b [true; false] -> what [lit "dist"; lit "page.html"] (C98_after (stripping b C98_config)) = KFile (lit "s")) /\
  what [lit "dist"; lit "about.html"] C98_plain = KFile (enc (lit "a")) /\
  what [lit "dist"; lit "about.html"] (C98_after C98_config) = KNone /\
  what [lit "dist"; lit "about"; lit "index.html"] (C98_after C98_config) = KFile (enc (lit "a")) /\
  what [lit "dist"; lit "d.json"] (C98_after C98_config) = KFile (lit "null") /\
  what [lit "dist"; lit "d.json"] (C98_after (with_data false C98_config)) = KNone /\
  what [lit "metadata.json"] (C98_after (with_metadata true C98_config)) = KFile (lit "m") /\
  what [lit "metadata.json"] (C98_after C98_config) = KNone.
Proof. repeat split; try (vm_compute; reflexivity). intros b [<-|[<-|[]]]; vm_compute; reflexivity. Qed.
(** No two of its files come to the same place. *)
Example C98_apart : forall q1 q2 q b1 b2,
  what (output_dir C98_context ++ q1) C98_plain = KFile b1 -> what (output_dir C98_context ++ q2) C98_plain = KFile b2 ->
  goes C98_context C98_disk q1 q -> goes C98_context C98_disk q2 q -> q1 = q2.
Proof.
  assert (O : output_dir C98_context = [lit "dist"]) by (vm_compute; reflexivity). rewrite O.
  assert (P : forall q b, what ([lit "dist"] ++ q) C98_plain = KFile b -> In q [[lit "index.html"]; [lit "about.html"]; [lit "d.json"]; [lit "page.html"]]).
  { intros q b. assert (L : lookup [lit "dist"] C98_plain = Some (EDir [(lit "index.html", EFile (lit "i")); (lit "about.html", EFile (lit "a")); (lit "d.json", EFile (lit "null")); (lit "page.html", EFile (lit "s"))])) by (vm_compute; reflexivity).
    unfold what. rewrite DiskFacts.lookup_app, L. clear L. destruct q as [|k [|j q]]; cbn [lookup assoc]; [discriminate| |].
    - intros E. repeat match type of E with context [text_eqb ?a k] => destruct (text_eqb a k) eqn:X; [apply TextFacts.text_eqb_eq in X; subst k; cbn; tauto|clear X] end. discriminate.
    - intros E. repeat match type of E with context [text_eqb ?a k] => destruct (text_eqb a k); [discriminate|] end. discriminate. }
  assert (G : forall q0 q, In q0 [[lit "index.html"]; [lit "about.html"]; [lit "d.json"]; [lit "page.html"]] -> goes C98_context C98_disk q0 q ->
    q = if text_eqb (concat q0) (lit "about.html") then [lit "about"; lit "index.html"] else q0).
  { intros q0 q I. assert (H : goes C98_context C98_disk q0 (if text_eqb (concat q0) (lit "about.html") then [lit "about"; lit "index.html"] else q0)).
    { assert (N : forall k, k <> lit "page.html" -> ~ copied C98_context C98_disk [k]).
      { intros k N (n & b & [<-|[<-|[]]] & L); [|discriminate L]. change (lookup ([lit "static"] ++ [k]) C98_disk = Some (EFile b)) in L.
        rewrite DiskFacts.lookup_app in L. change (lookup [lit "static"] C98_disk) with (Some (EDir [(lit "page.html", EFile (lit "s"))])) in L. cbn [lookup assoc] in L. match type of L with context [text_eqb ?a k] => destruct (text_eqb a k) eqn:X end; [|discriminate]. apply N. symmetry. now apply TextFacts.text_eqb_eq in X. }
      destruct I as [<-|[<-|[<-|[<-|[]]]]].
      - right. split; [apply N; discriminate|]. exact (we_index []).
      - right. split; [apply N; discriminate|]. apply (we_page [] (lit "about")); discriminate.
      - right. split; [apply N; discriminate|]. apply (we_other [] (lit "d.json")). intros stem E. apply (f_equal (@rev _)) in E. rewrite rev_app_distr in E. discriminate E.
      - left. split; [|reflexivity]. exists (lit "static"), (lit "s"). split; [now left|reflexivity]. }
    intros G. symmetry. eapply goes_fun; eassumption. }
  intros q1 q2 q b1 b2 A1 A2 G1 G2. apply P in A1, A2. pose proof (G _ _ A1 G1) as E1. pose proof (G _ _ A2 G2) as E2. rewrite E1 in E2.
  cbn [In] in A1, A2. repeat match goal with H : _ \/ _ |- _ => destruct H as [<-|H] | H : False |- _ => destruct H end; first [reflexivity|vm_compute in E2; discriminate].
Qed.
