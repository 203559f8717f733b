(** PropNew.v -- property C63: [stuart new]. *)

From Coq Require Import String List NArith ZArith Bool.
From Verif Require Import Text Utf8 Json Base Syntax Parse Tree Interp Build Disk Cli Dev New.
From Verif Require Import SpecScope SpecTree SpecDisk SpecProject SpecNew.
From Verif Require Import NewFacts NewSite.
Import ListNotations.

(** ** C63 *)
(** What a successful [stuart new] makes: exactly these entries, and [.git] when git is used;
    outside the new directory nothing changes. *)
Theorem C63_created : forall png toml g no_git cwd name d, let p := join_path cwd name in
  p <> [] -> what p d = KNone -> what (parent p) d = KDir -> no_git = true \/ (only_git (g_init g) /\ relative name) ->
  exists d', new_site (basic_site png toml) g no_git None None cwd name d = (d', Ok tt) /\ same_outside p d d' /\
    (forall q, ~ above [lit ".git"] q -> what (p ++ q) d' =
       what q (fresh_project (enc (new_manifest g name)) (enc basic_index) (enc basic_root) png (enc basic_style) (if no_git then None else Some (enc ignored)))) /\
    what (p ++ [lit ".git"]) d' = (if no_git then KNone else KDir).
Proof. exact new_creates. Qed.
Print Assumptions C63_created.
(** A name that is taken, or whose directory does not exist, is refused, and nothing changes. *)
Theorem C63_refuses : forall tpl g no_git f' cwd name d, let p := join_path cwd name in what p d <> KNone \/ what (parent p) d <> KDir ->
  new_site tpl g no_git None f' cwd name d = (d, Err (E_Fs FE_Write)).
Proof. exact new_refuses. Qed.
Print Assumptions C63_refuses.
(** Whatever fails, nothing outside the new directory changes.  Missing: absolute names when git is used. *)
Theorem C63_outside_partial : forall png toml g no_git f f' cwd name d, no_git = true \/ (only_git (g_init g) /\ relative name) ->
  same_outside (join_path cwd name) d (fst (new_site (basic_site png toml) g no_git f f' cwd name d)).
Proof. exact new_outside. Qed.
Print Assumptions C63_outside_partial.
(** With an absolute name, git is started in a directory below the current one. *)
Theorem C63_outside_refuted : exists g cwd name d, only_git (g_init g) /\ let p := join_path cwd name in
  p <> [] /\ what p d = KNone /\ what (parent p) d = KDir /\
  snd (new_site (basic_site [] []) g false None None cwd name d) = Ok tt /\
  ~ same_outside p d (fst (new_site (basic_site [] []) g false None None cwd name d)).
Proof. exact outside_changes. Qed.
Print Assumptions C63_outside_refuted.
(** The manifest says the name and the author.  Missing: names with characters that TOML wants escaped. *)
Theorem C63_manifest_partial : forall g name, toml_plain name ->
  (forall n e, g_name g = Some n -> g_email g = Some e -> toml_plain n /\ toml_plain e) ->
  site_manifest (new_manifest g name) name (known_author (g_name g) (g_email g)).
Proof. exact manifest_read. Qed.
Print Assumptions C63_manifest_partial.
(** With a quotation mark in the name, the manifest says nothing. *)
Theorem C63_manifest_refuted : exists g name, forall n a, ~ site_manifest (new_manifest g name) n a.
Proof. exact manifest_spoilt. Qed.
Print Assumptions C63_manifest_refuted.
(** A new project can be built, on every machine, and its output is this page and the two static files. *)
Theorem C63_builds : forall png toml g no_git cwd name d m r mode, let p := join_path cwd name in
  p <> [] -> what p d = KNone -> what (parent p) d = KDir -> no_git = true \/ (only_git (g_init g) /\ relative name) ->
  ent_distinct d -> rc_settings r = None ->
  exists d1 c' d', new_site (basic_site png toml) g no_git None None cwd name d = (d1, Ok tt) /\
    cli_build m no_faults (init r [] p (lit "dist") mode d1) d1 = (c', d', COk) /\
    forall q o, what (p ++ [lit "dist"] ++ q) d' = KFile o <->
      In (q, o) [([lit "index.html"], enc fresh_page); ([lit "lightning.png"], png); ([lit "style.css"], enc basic_style)].
Proof. exact new_builds. Qed.
Print Assumptions C63_builds.

(** In a directory with another project, by a user git knows. *)
Example C63_git : git := Git (Some (lit "Ada")) (Some (lit "ada@x")) simple_init.
Example C63_disk : ent := EDir [(lit "w", EDir [(lit "old", EFile [1%N])])].
Example C63_case : let p := join_path [lit "w"] (lit "site") in
  p <> [] /\ what p C63_disk = KNone /\ what (parent p) C63_disk = KDir /\ only_git (g_init C63_git) /\ relative (lit "site") /\ ent_distinct C63_disk /\
  match new_site (basic_site [137%N] []) C63_git false None None [lit "w"] (lit "site") C63_disk with
  | (d', r) => r = Ok tt /\ what [lit "w"; lit "site"; lit "static"; lit "lightning.png"] d' = KFile [137%N] /\
      what [lit "w"; lit "site"; lit ".git"] d' = KDir /\ what [lit "w"; lit "old"] d' = KFile [1%N] /\
      what [lit "w"; lit "site"; lit "stuart.toml"] d' = KFile (enc (lit
"[site]
name = ""site""
author = ""Ada <ada@x>""
"))
  end.
Proof.
  cbn zeta. split; [discriminate|]. split; [reflexivity|]. split; [reflexivity|]. split; [exact simple_only|]. split; [intros r; discriminate|].
  split; [repeat first [apply ed_file|apply ed_dir|constructor]; vm_compute; intuition discriminate|]. vm_compute. repeat split; reflexivity.
Qed.
(** Another attempt at the same name. *)
Example C63_again : snd (new_site (basic_site [137%N] []) C63_git false None None [lit "w"] (lit "old") C63_disk) = Err (E_Fs FE_Write).
Proof. reflexivity. Qed.
(** The disk is full after three calls. *)
Example C63_full : match new_site (basic_site [137%N] []) C63_git false (Some (Fault 3 (Some (EFile [])))) None [lit "w"] (lit "site") C63_disk with
  | (d', r) => r = Err (E_Fs FE_Write) /\ what [lit "w"; lit "site"; lit "stuart.toml"] d' = KFile [] /\ what [lit "w"; lit "old"] d' = KFile [1%N] end.
Proof. vm_compute. repeat split; reflexivity. Qed.
Example C63_plain : toml_plain (lit "site") /\ toml_plain (lit "Ada") /\ toml_plain (lit "ada@x").
Proof. repeat split; repeat (apply Forall_cons; [split; [discriminate|split; [discriminate|split; [now right|discriminate]]]|]); apply Forall_nil. Qed.
