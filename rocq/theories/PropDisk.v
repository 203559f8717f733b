(** PropDisk.v -- properties C39 to C44: what a save and a build leave on the disk. *)

From Coq Require Import String List NArith ZArith Bool Lia.
From Verif Require Import Text Utf8 Json Base Syntax Parse Tree Interp Build Disk Cli SpecScope SpecTree SpecDisk SpecProject.
From Verif Require Import DiskFacts SaveFacts ProjectFacts CliFacts.
Import ListNotations.

(** For the examples: a builder with a given output, a program and a project [p] on a disk. *)
Example file (name body : string) (pc : parsed) : node := NFile (lit name) (enc (lit body)) pc None [].
Example built (ch : list node) : stuart := Stuart None (Some (NDir (lit "c") ch [])) config_default None [].
Example idle : machine :=
  Machine (Host (fun _ => false) (fun t => t) None (fun _ => Some VNull)) (fun _ => []) [] (fun _ d => (d, ScriptOk)).
Example project (output : string) (meta : bool) : context :=
  Context (stuart_new (Config (lit "n") None true false meta) []) [] [] (lit "production") [lit "p"] (lit output).
Example page : ent := EFile (enc (lit "{{ begin(""b"") }}x{{ end(""b"") }}")).
Example disk (content static : list (text * ent)) : ent :=
  EDir [(lit "other", EFile []);
        (lit "p", EDir [(lit "stuart.toml", EFile []);
                        (lit "content", EDir ((lit "root.html", EFile (enc (lit "<{{ insert(""b"") }}>"))) :: content));
                        (lit "static", EDir static);
                        (lit "dist", EDir [(lit "old.html", EFile [])])])].

(** ** C39 *)
Theorem C39_exactly : forall f st p d d' out ch l, st_output st = Some out -> n_children out = Some ch ->
  saves_all (st_config st) [] ch l -> ent_distinct d -> save f st p d = (d', Ok tt) -> exactly p l d'.
Proof. exact save_exactly. Qed.
Print Assumptions C39_exactly.
(** [saves_all] covers every tree whose names are names of files. *)
Theorem C39_covers : forall cf ch, (forall c m, In c ch -> inside m c -> tame cf m) -> forall dir, exists l, saves_all cf dir ch l.
Proof. exact tame_saves_all. Qed.
Print Assumptions C39_covers.
(** Saving works whenever the place is free or a directory and no file is in the way of a directory. *)
Theorem C39_succeeds : forall st p d out ch l, st_output st = Some out -> n_children out = Some ch -> saves_all (st_config st) [] ch l -> no_clash l ->
  ent_distinct d -> p <> [] -> what (parent p) d = KDir -> what p d = KNone \/ what p d = KDir ->
  exists d', save None st p d = (d', Ok tt).
Proof. exact save_succeeds. Qed.
Print Assumptions C39_succeeds.
Example C39_tree : list node :=
  [file "a.html" "A" PNone; file "root.html" "R" PNone; file "d.json" "1" PNone; file "s.html" "S" PIgnored;
   NDir (lit "sub") [file "index.html" "I" PNone] []].
Example C39_entries : list (path * option bytes) :=
  [([lit "a"], None); ([lit "a"; lit "index.html"], Some (enc (lit "A"))); ([lit "s.html"], Some (enc (lit "S")));
   ([lit "sub"], None); ([lit "sub"; lit "index.html"], Some (enc (lit "I")))].
Example C39_case : exists l d', saves_all config_default [] C39_tree l /\ l = C39_entries /\
  save None (built C39_tree) [lit "p"; lit "dist"] (disk [] []) = (d', Ok tt) /\
  what [lit "p"; lit "dist"; lit "a"; lit "index.html"] d' = KFile (enc (lit "A")) /\ what [lit "p"; lit "dist"; lit "old.html"] d' = KNone.
Proof.
  destruct (tame_saves_all config_default C39_tree) with (dir := @nil text) as [l L].
  { intros c m [<-|[<-|[<-|[<-|[<-|[]]]]]] J; unfold file in J; inversion J; subst;
      repeat match goal with H : In _ _ |- _ => destruct H as [<-|H]; [|try destruct H] | H : inside _ (NFile _ _ _ _ _) |- _ => inversion H; clear H; subst end;
      cbn [tame]; unfold plain; repeat split; try (intros E; discriminate E); try (intros E; repeat (destruct E as [E|E]; [discriminate E|]); exact E);
      intros stem (_ & _ & _ & E) ->; discriminate E. }
  exists l. eexists. split; [exact L|]. split.
  - apply (saves_all_is _ _ _ C39_entries L). vm_compute. reflexivity.
  - split; [vm_compute; reflexivity|]. split; vm_compute; reflexivity.
Qed.

(** ** C40 *)
(** Files are lost: the pages [a.md] and [a.html] of one directory, the page [foo.html] and
    [foo/index.html], a page and a static file. *)
Theorem C40_no_overwrite_refuted : exists m c d d' c',
  d = disk [(lit "foo.html", page); (lit "foo", EDir [(lit "index.html", EFile (enc (lit "{{ begin(""b"") }}second{{ end(""b"") }}")))])] [] /\
  c = project "dist" false /\ cli_build m no_faults c d = (c', d', COk) /\
  what [lit "p"; lit "dist"; lit "foo"] d' = KDir /\ what [lit "p"; lit "dist"; lit "foo"; lit "index.html"] d' = KFile (enc (lit "<second>")).
Proof. exists idle, (project "dist" false). do 3 eexists. split; [reflexivity|]. split; [reflexivity|]. split; [vm_compute; reflexivity|]. repeat split. Qed.
Print Assumptions C40_no_overwrite_refuted.
Theorem C40_same_name_refuted : exists m c d d' c',
  d = disk [(lit "a.html", page); (lit "md.html", EFile (enc (lit "{{ begin(""b"") }}{{ $self.content }}{{ end(""b"") }}"))); (lit "a.md", EFile (enc (lit "second")))] [] /\
  c = project "dist" false /\ cli_build m no_faults c d = (c', d', COk) /\
  what [lit "p"; lit "dist"; lit "a"; lit "index.html"] d' = KFile (enc (lit "<second>")).
Proof. exists idle, (project "dist" false). do 3 eexists. split; [reflexivity|]. split; [reflexivity|]. split; [vm_compute; reflexivity|]. repeat split. Qed.
Print Assumptions C40_same_name_refuted.
(** With different targets nothing is lost. *)
Theorem C40_no_overwrite_partial : forall f st p d d' out ch l q b, st_output st = Some out -> n_children out = Some ch ->
  saves_all (st_config st) [] ch l -> no_overwrite l -> ent_distinct d -> save f st p d = (d', Ok tt) ->
  In (q, Some b) l -> what (p ++ q) d' = KFile b.
Proof. exact all_saved. Qed.
Print Assumptions C40_no_overwrite_partial.
Example C40_case : no_overwrite C39_entries.
Proof. exact (distinct_no_overwrite C39_entries ltac:(vm_compute; repeat constructor; cbn; intuition discriminate)). Qed.

(** ** C41 *)
Theorem C41_static_refuted : exists m c d d' c',
  d = disk [] [(lit "data.json", EFile (enc (lit "1"))); (lit "md.html", EFile (enc (lit "m")))] /\
  c = project "dist" false /\ cli_build m no_faults c d = (c', d', COk) /\
  what [lit "p"; lit "dist"; lit "data.json"] d' = KNone /\ what [lit "p"; lit "dist"; lit "md.html"] d' = KNone.
Proof. exists idle, (project "dist" false). do 3 eexists. split; [reflexivity|]. split; [reflexivity|]. split; [vm_compute; reflexivity|]. repeat split. Qed.
Print Assumptions C41_static_refuted.
(** A file whose name is not one of these and whose place is not taken by a page is published. *)
Theorem C41_static_partial : forall m f c d c' d' d1 ks k b l out ch, cli_build m f c d = (c', d', COk) -> ran (m_script m) (cx_pre c) d d1 ->
  ent_distinct d1 -> (forall e, fl_temp f = Some (Some e) -> ent_distinct e) ->
  lookup (cx_dir c ++ [lit "static"]  ++ ks ++ [k]) d1 = Some (EFile b) ->
  st_output (cx_stuart c') = Some out -> n_children out = Some ch -> saves_all (st_config (cx_stuart c')) [] ch l ->
  ~ hidden (st_config (cx_stuart c')) k -> (forall b', In (ks ++ [k], Some b') l -> b' = b) ->
  output_dir c ++ ks ++ [k] <> cx_dir c ++ [lit "metadata.json"] ->
  scripts_leave (m_script m) (cx_post c) (eq (output_dir c ++ ks ++ [k])) ->
  what (output_dir c ++ ks ++ [k]) d' = KFile b.
Proof. exact static_published. Qed.
Print Assumptions C41_static_partial.
Example C41_case : exists c' d', cli_build idle no_faults (project "dist" true) (disk [(lit "a.html", page)] [(lit "img", EDir [(lit "x.html", EFile (enc (lit "X")))])]) = (c', d', COk) /\
  output_dir (project "dist" true) = [lit "p"; lit "dist"] /\
  what ([lit "p"; lit "dist"] ++ [lit "img"] ++ [lit "x.html"]) d' = KFile (enc (lit "X")) /\ what [lit "p"; lit "dist"; lit "a"; lit "index.html"] d' = KFile (enc (lit "<x>")) /\
  ~ hidden (Config (lit "n") None true false true) (lit "x.html").
Proof.
  do 2 eexists. split; [vm_compute; reflexivity|]. split; [reflexivity|]. split; [reflexivity|]. split; [reflexivity|].
  intros [[H|H]|[_ [s H]]]; try discriminate H. apply (f_equal (@rev N)) in H. rewrite rev_app_distr in H. discriminate H.
Qed.

(** ** C42 *)
(** A page called [...html] is written beside the output directory. *)
Theorem C42_outside_refuted : exists m c d d' c',
  d = disk [(lit "...html", page)] [] /\ c = project "dist" false /\ cli_build m no_faults c d = (c', d', COk) /\
  what [lit "p"; lit "index.html"] d = KNone /\ what [lit "p"; lit "index.html"] d' = KFile (enc (lit "<x>")).
Proof. exists idle, (project "dist" false). do 3 eexists. split; [reflexivity|]. split; [reflexivity|]. split; [vm_compute; reflexivity|]. repeat split. Qed.
Print Assumptions C42_outside_refuted.
(** Otherwise nothing outside is touched, whatever call fails or is interrupted. *)
Theorem C42_outside_partial : forall f st p d out, st_output st = Some out -> tame_tree (st_config st) out ->
  same_outside p d (fst (save f st p d)).
Proof. exact save_outside. Qed.
Print Assumptions C42_outside_partial.
(** Output trees are tame when no file is called [...html] or [...md] and no plugin has parsers. *)
Theorem C42_tame_partial : forall m c d st, build_and_merge m c d = (st, Ok tt) -> inward_project c d ->
  exists out, st_output st = Some out /\ tame_tree (st_config st) out.
Proof. exact merged_tame. Qed.
Print Assumptions C42_tame_partial.
(** The fourth call, the write of [a/index.html], fails and leaves half a file. *)
Example C42_case : exists d', save (Some (Fault 3 (Some (EFile [65%N])))) (built C39_tree) [lit "p"; lit "dist"] (disk [] []) = (d', Err (E_Fs FE_Write)) /\
  what [lit "p"; lit "dist"; lit "a"; lit "index.html"] d' = KFile [65%N] /\ what [lit "p"; lit "dist"; lit "s.html"] d' = KNone /\ what [lit "other"] d' = KFile [].
Proof. eexists. split; [vm_compute; reflexivity|]. now repeat split. Qed.

(** ** C43 *)
(** Nothing is written unless loading, parsing, processing and merging succeed. *)
Theorem C43_failed : forall m f c d d1, ran (m_script m) (cx_pre c) d d1 -> snd (build_and_merge m c d1) <> Ok tt ->
  snd (fst (cli_build m f c d)) = d1 /\ snd (cli_build m f c d) = of_res (snd (build_and_merge m c d1)).
Proof. exact failed_build. Qed.
Print Assumptions C43_failed.
(** In terms of the error reported: only failures to write leave changes. *)
Theorem C43_error : forall m f c d c' d' e d1, cli_build m f c d = (c', d', CErr (CE e)) -> e <> E_Fs FE_Write ->
  ran (m_script m) (cx_pre c) d d1 -> d' = d1.
Proof. exact error_unchanged. Qed.
Print Assumptions C43_error.
Theorem C43_panic : forall m f c d c' d' p d1, cli_build m f c d = (c', d', CPanic p) -> p <> Pn_meta_object ->
  ran (m_script m) (cx_pre c) d d1 -> d' = d1.
Proof. exact panic_unchanged. Qed.
Print Assumptions C43_panic.
Example C43_case : exists c' e, cli_build idle no_faults (project "dist" true) (disk [(lit "a.html", EFile (enc (lit "{{ $x }}")))] []) =
  (c', disk [(lit "a.html", EFile (enc (lit "{{ $x }}")))] [], CErr (CE e)) /\ e <> E_Fs FE_Write.
Proof. do 2 eexists. split; [vm_compute; reflexivity|discriminate]. Qed.

(** ** C44 *)
(** [--output .] removes the project. *)
Theorem C44_sources_refuted : exists m c d d' c', d = disk [(lit "a.html", page)] [] /\ c = project "." false /\
  cli_build m no_faults c d = (c', d', COk) /\
  what [lit "p"; lit "content"; lit "a.html"] d <> KNone /\ what [lit "p"; lit "content"] d' = KNone /\ what [lit "p"; lit "stuart.toml"] d' = KNone.
Proof.
  exists idle, (project "." false). do 3 eexists. split; [reflexivity|]. split; [reflexivity|]. split; [vm_compute; reflexivity|]. split; [discriminate|]. now split.
Qed.
Print Assumptions C44_sources_refuted.
(** An output directory that does not contain a path leaves it alone, whatever fails. *)
Theorem C44_sources_partial : forall m f c d q, (forall d1, ran (m_script m) (cx_pre c) d d1 -> inward_project c d1) ->
  scripts_leave (m_script m) (cx_pre c) (eq q) -> scripts_leave (m_script m) (cx_post c) (eq q) ->
  ~ above (output_dir c) q -> ~ above (cx_dir c ++ [lit "temp"]) q -> ~ above (cx_dir c ++ [lit "metadata.json"]) q ->
  what q (snd (fst (cli_build m f c d))) = what q d.
Proof. exact build_leaves. Qed.
Print Assumptions C44_sources_partial.
(** What the output directory is. *)
Theorem C44_output_dir : forall c q, output_dir c = q <-> meant (cx_dir c) (cx_output c) q.
Proof. exact output_meant. Qed.
Print Assumptions C44_output_dir.
Example C44_dir_case : output_dir (project "../out/./x//y/.." false) = [lit "out"; lit "x"] /\ output_dir (project "/srv/www" false) = [lit "srv"; lit "www"].
Proof. split; vm_compute; reflexivity. Qed.
Example C44_case : inward_project (project "dist" true) (disk [(lit "a.html", page)] []) /\
  ~ above (output_dir (project "dist" true)) [lit "p"; lit "content"; lit "a.html"].
Proof.
  split; [|intros [r H]; discriminate H].
  repeat split; try reflexivity; intros e E; vm_compute in E; try discriminate E; injection E as <-;
    repeat (constructor; cbn [fst snd]); unfold inward, plain; repeat split; try (intros X; discriminate X); intros X; repeat (destruct X as [X|X]; [discriminate X|]); exact X.
Qed.
